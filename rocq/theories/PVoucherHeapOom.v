(** Proofs: reading a voucher from JSON when allocations may fail. *)
From Coq Require Import Permutation ZifyBool ZifyNat ZifyN.
From Verif Require Import Base PBase MBase64 SBase64 PBase64 MSerialize SSerialize PSerialize MOs POs
  MJsmn PJsmn MVoucher SVoucher PVoucher SJson PVoucherText PJsonTok PVoucherJson
  MHeap MVoucherHeap SHeap SArray SVoucherHeap SSerialHeap PHeap PArray PBlocks POwn PHold PVoucherHeap PVoucherHeapJson.
Open Scope N_scope.

Lemma refused_mid : forall base h h1 h2, gentle base h h1 -> hp_oom h1 (hp_next h1) = true -> hp_next h1 < hp_next h2 -> refused h h2.
Proof. intros base h h1 h2 (_ & Ho & Hn) Oo Hlt. exists (hp_next h1). rewrite <- Ho. split; [lia|exact Oo]. Qed.

Definition text_exact (base : N) (h : heap) (v : N) (f : attrs) (lk : list N) (a : attr) (x : bytes) (r : outcome (Z * heap)) : Prop :=
  exists rc h' f' lk', r = Ok (rc, h') /\ gentle base h h' /\ vstate base h' v f' lk' /\
    ((exists p, value_ok a x p /\ rc = 0%Z /\ f' = put_f f a p /\ List.length lk' = (over f a p + List.length lk)%nat) \/
     (rc = (-1)%Z /\ ((forall p, ~ value_ok a x p) \/ refused h h') /\
      (List.length lk' = List.length lk \/ (owning a /\ List.length lk' = (held (f a) + List.length lk)%nat)))).

Lemma serial_exact : forall base h v f lk x B, vstate base h v f lk -> cstr_ok x ->
  text_exact base h v f lk ASerial x (h_set_attr_nstr h v (Some (x ++ B)) (blen x)).
Proof.
  intros base h v f lk x B Hs Hx. pose proof (set_nstr_step base h v f lk (x ++ B) (blen x) Hs) as X. rewrite blen_app in X. specialize (X ltac:(lia)).
  destruct (blen x <? 128) eqn:E.
  - replace (firstn (N.to_nat (blen x)) (x ++ B)) with x in X by (unfold blen; rewrite Nat2N.id, firstn_app, firstn_all, Nat.sub_diag; cbn; rewrite app_nil_r; reflexivity).
    rewrite c_string_cstr in X by exact Hx. destruct X as (rc & h' & old & Er & G & _ & [Hlt L] & Cs).
    destruct Cs as [(-> & Oom & Hs')|(-> & Oom & Hs')].
    + exists (-1)%Z, h', (upd f ASerial None), (old ++ lk). repeat (split; [assumption|]). right. split; [reflexivity|]. split; [right; apply refused_here; assumption|]. right. split; [right; reflexivity|]. rewrite app_length, L. reflexivity.
    + exists 0%Z, h', (upd f ASerial (Some x)), (old ++ lk). repeat (split; [assumption|]). left. exists (PStr x). cbn [value_ok kind put_f over]. split; [split; [lia|reflexivity]|]. rewrite app_length, L. auto.
  - exists (-1)%Z, h, f, lk. split; [exact X|]. split; [apply gentle_refl|]. split; [exact Hs|]. right. split; [reflexivity|]. split; [|auto]. left. intros p [Q _]. lia.
Qed.

Lemma array_exact : forall base h v f lk a i x B, vstate base h v f lk -> cstr_ok x -> arr_field a = Some i ->
  text_exact base h v f lk a x (h_set_attr_base64 h v a (x ++ B) (blen x)).
Proof.
  intros base h v f lk a i x B Hs Hx Hi. unfold h_set_attr_base64. rewrite take_mem_app. cbn [obind]. unfold h_base64str2array.
  assert (Hk : kind a = KArr) by (destruct a; try discriminate; reflexivity).
  assert (Ho : owning a) by (left; unfold is_array; rewrite Hi; reflexivity).
  destruct (hp_oom h (hp_next h)) eqn:Oom; cbn [negb].
  - rewrite decode_no_mem by (apply cstr_bytes; exact Hx). cbn [obind Z.ltb Z.compare]. destruct (alloc h (Buf [])) as [c h1] eqn:Ea. cbn [snd].
    destruct (vstate_alloc _ _ _ _ _ _ _ _ Hs Ea) as [Hs1 G1]. unfold alloc in Ea. rewrite Oom in Ea. injection Ea as <- <-. cbn [nz N.eqb app] in Hs1.
    eexists _, _, f, lk. split; [reflexivity|]. split; [exact G1|]. split; [exact Hs1|]. right. split; [reflexivity|]. split; [|auto]. right. apply refused_here; [exact Oom|cbn; lia].
  - rewrite decode_spec by (apply cstr_bytes; exact Hx). destruct (rfc_decode x) as [d|] eqn:Ed; cbn [obind].
    + destruct (alloc h (Buf d)) as [c h1] eqn:Ea. cbn [obind]. destruct (vstate_alloc _ _ _ _ _ _ _ _ Hs Ea) as [Hs1 G1].
      pose proof Hs as [fs0 [(W & _) _]]. destruct (alloc_cases h (Buf d) W) as [c' [h1' [Ea' [W1 [Hn1 [Ho1 Cs]]]]]]. rewrite Ea in Ea'. injection Ea' as <- <-.
      destruct Cs as [[_ [X _]]|[Hc [C0 [_ [Cc [Cf Cx]]]]]]; [congruence|].
      unfold nz in Hs1. rewrite (proj2 (N.eqb_neq _ _) C0) in Hs1. cbn [app] in Hs1.
      destruct (Z.of_N (blen d) <? 0)%Z eqn:En; [lia|].
      destruct (local h1 (Struct [P c; I (Z.of_N (blen d))])) as [s h2] eqn:El. destruct (vstate_local _ _ _ _ _ _ _ _ Hs1 El) as (Hs2 & G2 & S0 & Cs & Sv & K2).
      assert (Cc2 : hp_cell h2 c = Live (Buf d)) by (rewrite K2; [exact Cc|eexists; exact Cc]).
      assert (Hok : array_ok h2 s 0%nat).
      { right. eexists _, c, (blen d). split; [exact Cs|]. split; [exact S0|]. split; [reflexivity|]. split; [reflexivity|]. right. split; [exact C0|]. exists d. split; [exact Cc2|lia]. }
      pose proof (set_array_caller _ _ _ _ _ a _ _ Hs2 Hok Sv) as X. unfold is_array in X. rewrite Hi in X.
      rewrite (array_of_at h2 s 0%nat _ c (blen d) S0 Cs eq_refl eq_refl) in X. rewrite (proj2 (N.eqb_neq _ _) C0) in X. unfold content in X. rewrite Cc2 in X.
      rewrite firstn_all2 in X by (unfold blen; lia). destruct X as (rc & h3 & old & Er & G3 & K3 & [Hlt L] & Cases). rewrite Er. cbn [obind fst snd].
      assert (Cs3 : hp_cell h3 s = Live (Struct [P c; I (Z.of_N (blen d))])) by (rewrite K3; [exact Cs|exact Sv|eexists; exact Cs]).
      assert (R : exists h', (obind (h_free_binary_array_content h3 (s, 0%nat)) (fun h => obind (sys_free h s) (fun h => Ok (if (rc <? 0)%Z then (-1)%Z else 0%Z, h)))) = Ok (rc, h') /\
        gentle base h3 h' /\ forall g, vstate base h3 v g (old ++ s :: c :: lk) -> vstate base h' v g (old ++ lk)).
      { unfold h_free_binary_array_content. cbn [fst snd]. rewrite (proj2 (N.eqb_neq _ _) S0). rewrite (get_ptr_at h3 s _ 0%nat c S0 Cs3 eq_refl). cbn [obind]. rewrite (proj2 (N.eqb_neq _ _) C0).
        assert (Hg : exists g, vstate base h3 v g (old ++ s :: c :: lk)) by (destruct Cases as [(_ & _ & Q)|(_ & _ & Q)]; eauto). destruct Hg as [g0 Hg0].
        assert (Pm : Permutation (old ++ s :: c :: lk) (c :: s :: old ++ lk)).
        { transitivity (s :: c :: old ++ lk); [|apply perm_swap]. transitivity (s :: old ++ c :: lk); [symmetry; apply Permutation_middle|]. constructor. symmetry. apply Permutation_middle. }
        pose proof (vstate_perm _ _ _ _ _ _ Pm Hg0) as Hg1. destruct (vstate_free _ _ _ _ _ _ Hg1 C0) as [F1 [Hg2 Ga]]. rewrite F1. cbn [obind].
        assert (Hsc : s <> c). { intros X. rewrite X in Cs. congruence. }
        set (h4 := put h3 c Freed) in *. assert (Cs4 : hp_cell h4 s = Live (Struct [P c; I (Z.of_N (blen d))])) by (unfold h4; rewrite put_other by exact Hsc; exact Cs3).
        rewrite (set_field_at h4 s _ 0%nat (P 0) _ S0 Cs4 eq_refl). cbn [obind set_nthv]. set (h5 := put h4 s (Live (Struct [P 0; I (Z.of_N (blen d))]))).
        change (0 + 1)%nat with 1%nat. rewrite (set_field_at h5 s [P 0; I (Z.of_N (blen d))] 1%nat (I 0) _ S0 (put_same _ _ _) eq_refl). cbn [obind set_nthv]. set (h6 := put h5 s (Live (Struct [P 0; I 0]))).
        destruct (vstate_write _ _ _ _ _ s (Struct [P 0; I (Z.of_N (blen d))]) Hg2 (or_introl eq_refl)) as [Hg3 Gb]. fold h5 in Hg3, Gb.
        destruct (vstate_write _ _ _ _ _ s (Struct [P 0; I 0]) Hg3 (or_introl eq_refl)) as [Hg4 Gc]. fold h6 in Hg4, Gc.
        destruct (vstate_free _ _ _ _ _ _ Hg4 S0) as [F2 [_ Gd]]. rewrite F2. cbn [obind]. eexists. split.
        - destruct Cases as [(-> & _)|(-> & _)]; reflexivity.
        - split; [eapply gentle_trans; [exact Ga|]; eapply gentle_trans; [exact Gb|]; eapply gentle_trans; [exact Gc|exact Gd]|].
          intros g Hg. pose proof (vstate_perm _ _ _ _ _ _ Pm Hg) as Q1. destruct (vstate_free _ _ _ _ _ _ Q1 C0) as [_ [Q2 _]]. fold h4 in Q2.
          destruct (vstate_write _ _ _ _ _ s (Struct [P 0; I (Z.of_N (blen d))]) Q2 (or_introl eq_refl)) as [Q3 _]. fold h5 in Q3.
          destruct (vstate_write _ _ _ _ _ s (Struct [P 0; I 0]) Q3 (or_introl eq_refl)) as [Q4 _]. fold h6 in Q4. apply (vstate_free _ _ _ _ _ _ Q4 S0). }
      destruct R as [h' [Er' [G4 Hall]]]. exists rc, h'.
      assert (Gt : gentle base h h') by (eapply gentle_trans; [exact G1|]; eapply gentle_trans; [exact G2|]; eapply gentle_trans; [exact G3|exact G4]).
      destruct Cases as [(Hrc & Oom2 & Hs3)|(Hrc & Oom2 & Hs3)].
      * exists (upd f a None), (old ++ lk). split; [exact Er'|]. split; [exact Gt|]. split; [apply Hall; exact Hs3|]. right. split; [exact Hrc|]. split.
        -- right. eapply refused_mid; [eapply gentle_trans; [exact G1|exact G2]|exact Oom2|]. destruct G4 as (_ & _ & X). lia.
        -- right. split; [exact Ho|]. rewrite app_length, L. reflexivity.
      * exists (upd f a (Some d)), (old ++ lk). split; [exact Er'|]. split; [exact Gt|]. split; [apply Hall; exact Hs3|]. left. exists (PArr d). unfold value_ok. rewrite Hk. split; [eauto|]. split; [exact Hrc|]. cbn [put_f over]. rewrite app_length, L. auto.
    + assert (Hno : forall p, ~ value_ok a x p) by (intros p Q; unfold value_ok in Q; rewrite Hk in Q; destruct Q as [d [Q _]]; congruence).
      destruct (filter b64_relevant x) as [|y l]; cbn [obind].
      * cbn [Z.ltb Z.compare]. eexists _, _, f, lk. split; [reflexivity|]. split; [apply gentle_refl|]. split; [exact Hs|]. right. auto.
      * destruct (alloc h (Buf [])) as [c h1] eqn:Ea. destruct (vstate_alloc _ _ _ _ _ _ _ _ Hs Ea) as [Hs1 G1].
        assert (C0 : c <> 0). { unfold alloc in Ea. rewrite Oom in Ea. injection Ea as <- _. pose proof Hs as [fs0 [((W & _) & _) _]]. lia. }
        unfold nz in Hs1. rewrite (proj2 (N.eqb_neq _ _) C0) in Hs1. cbn [app] in Hs1. destruct (vstate_free _ _ _ _ _ _ Hs1 C0) as [F1 [Hs2 G2]]. rewrite F1. cbn [obind Z.ltb Z.compare].
        eexists _, _, f, lk. split; [reflexivity|]. split; [eapply gentle_trans; eassumption|]. split; [exact Hs2|]. right. auto.
Qed.

Lemma text_exact_step : forall base h v f lk a x B, vstate base h v f lk -> In a all_attrs -> cstr_ok x ->
  text_exact base h v f lk a x (h_set_by_text h v a (x ++ B) (blen x)).
Proof.
  intros base h v f lk a x B Hs Ha Hx.
  assert (V0 : v <> 0) by (destruct Hs as [fs [Hc _]]; apply (core_base _ _ _ _ _ Hc)).
  assert (Plain : kind a <> KStr -> kind a <> KArr -> text_exact base h v f lk a x (obind (set_by_text (if v =? 0 then None else Some init_voucher) a (x ++ B) (blen x)) (fun r => Ok (fst r, h)))).
  { intros K1 K2. rewrite (proj2 (N.eqb_neq _ _) V0). destruct (set_by_text_spec init_voucher a x B Ha Hx) as [[p [Hp ->]]|[Hp ->]]; cbn [obind fst].
    - exists 0%Z, h, f, lk. split; [reflexivity|]. split; [apply gentle_refl|]. split; [exact Hs|]. left. exists p. split; [exact Hp|]. split; [reflexivity|].
      unfold value_ok in Hp. destruct (kind a); try congruence.
      + destruct Hp as [t [_ ->]]. auto.
      + destruct Hp as [[_ ->]|[[_ ->]|[_ ->]]]; auto.
      + destruct Hp as [[_ ->]|[_ ->]]; auto.
      + contradiction.
    - exists (-1)%Z, h, f, lk. split; [reflexivity|]. split; [apply gentle_refl|]. split; [exact Hs|]. right. auto. }
  destruct a; cbn [h_set_by_text]; try (apply Plain; discriminate); try (eapply array_exact; [exact Hs|exact Hx|reflexivity]).
  apply serial_exact; assumption.
Qed.

Definition pair_exact (base : N) (h : heap) (v : N) (f : attrs) (lk : list N) (attrs0 : list attr) (k x : bytes) (r : outcome (Z * heap)) : Prop :=
  exists rc h' f' lk', r = Ok (rc, h') /\ gentle base h h' /\ vstate base h' v f' lk' /\
    ((exists a p, In a attrs0 /\ k = attr_name a /\ value_ok a x p /\ rc = 0%Z /\ f' = put_f f a p /\ List.length lk' = (over f a p + List.length lk)%nat) \/
     (rc = (-1)%Z /\ ((forall a p, In a attrs0 -> k = attr_name a -> ~ value_ok a x p) \/ refused h h') /\
      (List.length lk' = List.length lk \/ (exists a, In a attrs0 /\ k = attr_name a /\ owning a /\ List.length lk' = (held (f a) + List.length lk)%nat)))).

Lemma keyvalue_exact : forall l base h v f lk k rk x rx, vstate base h v f lk -> (forall a, In a l -> In a all_attrs) -> NoDup l -> cstr_ok k -> cstr_ok x ->
  pair_exact base h v f lk l k x (h_set_keyvalue l h v (k ++ rk) (blen k) (x ++ rx) (blen x)).
Proof.
  induction l as [|a l IH]; intros base h v f lk k rk x rx Hs Hall Hnd Hk Hx; cbn [h_set_keyvalue].
  - exists (-1)%Z, h, f, lk. split; [reflexivity|]. split; [apply gentle_refl|]. split; [exact Hs|]. right. split; [reflexivity|]. split; [left; intros a p []|auto].
  - rewrite check_size_spec by assumption. cbn [obind]. inversion Hnd as [|? ? Hni Hnd']; subst. destruct (beqb (attr_name a) k) eqn:E.
    + apply beqb_eq in E. subst k. destruct (text_exact_step base h v f lk a x rx Hs) as (rc & h' & f' & lk' & Er & G & Hs' & Cs); [apply Hall; left; reflexivity|exact Hx|].
      rewrite Er. cbn [obind fst snd]. exists rc, h', f', lk'. split; [destruct Cs as [(p & _ & -> & _)|[-> _]]; reflexivity|]. split; [exact G|]. split; [exact Hs'|].
      destruct Cs as [[p [H1 [H2 [H3 H4]]]]|[H1 [H2 H3]]].
      * left. exists a, p. split; [left; reflexivity|]. auto.
      * right. split; [exact H1|]. split.
        -- destruct H2 as [H2|H2]; [left|right; exact H2]. intros b p Hb Hn. assert (b = a) by (apply attr_name_inj; auto; apply Hall; left; reflexivity). subst. apply H2.
        -- destruct H3 as [H3|[Ho H3]]; [left; exact H3|right]. exists a. split; [left; reflexivity|]. auto.
    + apply beqb_neq in E. destruct (IH base h v f lk k rk x rx Hs) as (rc & h' & f' & lk' & Er & G & Hs' & Cs); [intros b Hb; apply Hall; right; exact Hb|exact Hnd'|exact Hk|exact Hx|].
      exists rc, h', f', lk'. split; [exact Er|]. split; [exact G|]. split; [exact Hs'|]. destruct Cs as [[b [p [H1 H2]]]|[H1 [H2 H3]]].
      * left. exists b, p. split; [right; exact H1|exact H2].
      * right. split; [exact H1|]. split.
        -- destruct H2 as [H2|H2]; [left|right; exact H2]. intros b p [<-|Hb] Hn; [congruence|eauto].
        -- destruct H3 as [H3|(b & Hb & H3)]; [left; exact H3|right]. exists b. split; [right; exact Hb|exact H3].
Qed.

Lemma refused_gentle : forall base h h1 h2, gentle base h h1 -> refused h1 h2 -> refused h h2.
Proof. intros base h h1 h2 (_ & Ho & Hn) R. eapply refused_before; [exact Hn|exact Ho|exact R]. Qed.

Lemma read_pairs_exact : forall J toks idx, toks_ok J toks -> blen J < 2147483648 ->
  forall n j base h v f lk w, vstate base h v f lk -> agrees f w ->
  exists ok h' f' lk', h_read_pairs J toks idx n j h v = Ok (ok, h') /\ gentle base h h' /\ vstate base h' v f' lk' /\
    ((exists w', read_pairs J toks idx n j (Some w) = Ok (ok, Some w') /\ (ok = true -> agrees f' w')) \/ (ok = false /\ refused h h')) /\
    (keys_differ J toks idx -> seen J toks idx f j -> List.length lk' = List.length lk).
Proof.
  intros J toks idx Ht HJ. induction n as [|n IH]; intros j base h v f lk w Hs Hw; cbn [h_read_pairs read_pairs].
  - exists true, h, f, lk. split; [reflexivity|]. split; [apply gentle_refl|]. split; [exact Hs|]. split; [|reflexivity]. left. exists w. auto.
  - assert (NO : exists ok h' f' lk', Ok (false, h) = Ok (ok, h') /\ gentle base h h' /\ vstate base h' v f' lk' /\
      ((exists w', Ok (false, Some w) = Ok (ok, Some w') /\ (ok = true -> agrees f' w')) \/ (ok = false /\ refused h h')) /\
      (keys_differ J toks idx -> seen J toks idx f j -> List.length lk' = List.length lk)).
    { exists false, h, f, lk. split; [reflexivity|]. split; [apply gentle_refl|]. split; [exact Hs|]. split; [|reflexivity]. left. exists w. auto. }
    destruct (nth_error toks (idx + j * 2 + 1)) as [k|] eqn:Ek; [|exact NO].
    destruct (nth_error toks (idx + (j * 2 + 1) + 1)) as [x|] eqn:Ex; [|exact NO]. clear NO.
    destruct (nth_toks_ok _ _ _ _ Ht Ek) as [kt [kB [K1 [K2 [K3 K4]]]]]. destruct (nth_toks_ok _ _ _ _ Ht Ex) as [xt [xB [X1 [X2 [X3 X4]]]]].
    rewrite K3, X3. cbn [obind]. rewrite (K4 HJ), (X4 HJ).
    destruct (keyvalue_exact all_attrs base h v f lk kt kB xt xB Hs) as (rc & h1 & f1 & lk1 & Er & G1 & Hs1 & Cs); [auto|apply all_attrs_nodup|exact K2|exact X2|].
    rewrite Er. cbn [obind fst snd]. destruct Cs as [(a & p & Ha & Hka & Hv & -> & -> & Hl)|(-> & Hno & Hl)]; cbn [Z.ltb Z.compare].
    + destruct (set_keyvalue_spec all_attrs w kt kB xt xB) as [[a' [p' [Ha' [Hk' [Hv' Hs']]]]]|[Hno _]]; [auto|apply all_attrs_nodup|exact K2|exact X2| |exfalso; exact (Hno a p Ha Hka Hv)].
      assert (a = a') by (apply attr_name_inj; congruence). subst a'. assert (p = p') by (eapply value_ok_fun; eassumption). subst p'.
      rewrite Hs'. cbn [obind fst snd Z.ltb Z.compare].
      destruct (IH (S j) base h1 v (put_f f a p) lk1 (put_value w a p) Hs1 (agrees_put _ _ _ _ _ Hw Ha Hv)) as (ok & h2 & f2 & lk2 & Er2 & G2 & Hs2 & Q1 & Q2).
      exists ok, h2, f2, lk2. split; [exact Er2|]. split; [eapply gentle_trans; eassumption|]. split; [exact Hs2|]. split.
      * destruct Q1 as [Q1|[Q1 R1]]; [left; exact Q1|right]. split; [exact Q1|]. eapply refused_gentle; eassumption.
      * intros Hu Hse. subst kt. rewrite Q2; [|exact Hu|eapply seen_put; [exact Hse|exact Ha|exact Hv|exact Ek|exact K1]]. rewrite Hl.
        destruct (put_f_owning f a xt p Ha Hv) as [[-> _]|[Ho ->]]; [reflexivity|]. rewrite (not_again _ _ _ _ _ _ _ Hu Hse Ho Ek K1). reflexivity.
    + exists false, h1, f1, lk1. split; [reflexivity|]. split; [exact G1|]. split; [exact Hs1|]. split.
      * destruct Hno as [Hno|R1]; [left|right; auto]. destruct (set_keyvalue_spec all_attrs w kt kB xt xB) as [[a' [p' [Ha' [Hk' [Hv' Hs']]]]]|[_ Hs']]; [auto|apply all_attrs_nodup|exact K2|exact X2|exfalso; exact (Hno a' p' Ha' Hk' Hv')|].
        rewrite Hs'. cbn [obind fst snd Z.ltb Z.compare]. exists w. split; [reflexivity|discriminate].
      * intros Hu Hse. destruct Hl as [Hl|(a & Ha & Hka & Ho & Hl)]; [exact Hl|]. subst kt. rewrite Hl, (not_again _ _ _ _ _ _ _ Hu Hse Ho Ek K1). reflexivity.
Qed.

Lemma find_root_exact : forall J toks q, toks_ok J toks -> blen J < 2147483648 -> jsmn_parse J 32 = inl toks -> place J q toks ->
  forall rest idx base h v lk, (1 <= idx)%nat -> (forall t, In t rest -> In t toks) -> vstate base h v unset lk ->
  exists ok h' f' lk', h_find_root J toks rest idx h v = Ok (ok, h') /\ gentle base h h' /\ vstate base h' v f' lk' /\
    ((exists w', find_root J toks rest idx (Some init_voucher) = Ok (ok, Some w') /\ (ok = true -> agrees f' w')) \/ (ok = false /\ refused h h')) /\
    (unrepeated J -> List.length lk' = List.length lk).
Proof.
  intros J toks q Ht HJ EP Hpl. induction rest as [|t rest IH]; intros idx base h v lk Le Hin Hs; cbn [h_find_root find_root].
  - exists false, h, unset, lk. split; [reflexivity|]. split; [apply gentle_refl|]. split; [exact Hs|]. split; [|reflexivity]. left. exists init_voucher. split; [reflexivity|discriminate].
  - assert (Hi : In t toks) by (apply Hin; left; reflexivity). apply In_nth_error in Hi. destruct Hi as [i Hi].
    destruct (nth_toks_ok _ _ _ _ Ht Hi) as [x [B [X1 [X2 [X3 X4]]]]]. rewrite X3. cbn [obind]. rewrite (X4 HJ), root_prefix by assumption. cbn [obind].
    assert (Hno : exists ok h' f' lk', Ok (false, h) = Ok (ok, h') /\ gentle base h h' /\ vstate base h' v f' lk' /\
      ((exists w', Ok (false, Some init_voucher) = Ok (ok, Some w') /\ (ok = true -> agrees f' w')) \/ (ok = false /\ refused h h')) /\ (unrepeated J -> List.length lk' = List.length lk)).
    { exists false, h, unset, lk. split; [reflexivity|]. split; [apply gentle_refl|]. split; [exact Hs|]. split; [|reflexivity]. left. exists init_voucher. split; [reflexivity|discriminate]. }
    destruct (beqb x (firstn (List.length x) root_name)).
    + destruct (nth_error toks (S idx)) as [o|] eqn:Eo; [|exact Hno]. destruct (tk_type o) eqn:To; try exact Hno.
      destruct (read_pairs_exact J toks (S idx) Ht HJ (Z.to_nat (tk_size o)) 0%nat base h v unset lk init_voucher Hs agrees_unset) as (ok & h' & f' & lk' & E & G & Hs' & Q1 & Q2).
      exists ok, h', f', lk'. split; [exact E|]. split; [exact G|]. split; [exact Hs'|]. split; [exact Q1|]. intros Hu. apply Q2; [eapply single_keys; eassumption|apply seen_unset].
    + apply IH; [lia| |exact Hs]. intros u Hu. apply Hin. right. exact Hu.
Qed.

(** *** Without a voucher *)
Definition nowhere (base : N) (h : heap) (L : list N) (r : outcome (bool * heap)) : Prop :=
  match r with
  | UB k => k = NullDeref
  | Ok (_, h') => gentle base h h' /\ hold base h' L
  end.

Lemma gentle_ext : forall base h h' L, hold base h L -> ext h h' -> gentle base h h'.
Proof. intros base h h' L (_ & B & _) (_ & Hn & K & Ho). split; [intros x Hx; apply K; lia|]. split; [exact Ho|exact Hn]. Qed.
Lemma hold_local : forall base h L b s h', hold base h L -> local h b = (s, h') -> hold base h' (s :: L) /\ ext h h' /\ s = hp_next h /\ hp_cell h' s = Live b.
Proof.
  intros base h L b s h' H E. pose proof H as (W & B & D & G & V). unfold local in E. injection E as <- <-. pose proof W as (W1 & W2 & W3).
  assert (W' : heap_wf (mk_heap (hp_next h + 1) (fun x => if x =? hp_next h then Live b else hp_cell h x) (hp_oom h))).
  { split; [cbn [hp_next]; lia|]. split; [cbn [hp_cell]; rewrite (proj2 (N.eqb_neq 0 (hp_next h))) by lia; exact W2|]. intros a Ha. cbn [hp_next hp_cell] in *. rewrite (proj2 (N.eqb_neq a (hp_next h))) by lia. apply W3. lia. }
  split; [|split; [|split; [reflexivity|cbn; rewrite N.eqb_refl; reflexivity]]].
  - split; [exact W'|]. split; [cbn [hp_next]; lia|]. split; [|split].
    + constructor; [|exact D]. intros Q. destruct (hold_in _ _ _ _ H Q) as (_ & _ & X & _). lia.
    + intros x [<-|Hx]; [lia|apply G; exact Hx].
    + intros x Hx. cbn [In]. unfold is_live. cbn [hp_cell]. destruct (x =? hp_next h) eqn:Q.
      * apply N.eqb_eq in Q. subst x. split; [auto|]. intros _. eexists. reflexivity.
      * apply N.eqb_neq in Q. fold (is_live h x). rewrite (V x Hx). split; [auto|]. intros [X|X]; [congruence|exact X].
  - split; [exact W'|]. split; [cbn [hp_next]; lia|]. split; [|reflexivity]. intros x Hx. cbn [hp_cell]. destruct (x =? hp_next h) eqn:Q; [lia|reflexivity].
Qed.

Lemma nowhere_text : forall base h L a x B, hold base h L -> In a all_attrs -> cstr_ok x ->
  match h_set_by_text h 0 a (x ++ B) (blen x) with
  | UB k => k = NullDeref
  | Ok (rc, h') => rc = (-1)%Z /\ gentle base h h' /\ hold base h' L
  end.
Proof.
  intros base h L a x B H Ha Hx.
  assert (Plain : kind a <> KStr -> kind a <> KArr -> match obind (set_by_text (if 0 =? 0 then None else Some init_voucher) a (x ++ B) (blen x)) (fun r => Ok (fst r, h)) with
    | UB k => k = NullDeref | Ok (rc, h') => rc = (-1)%Z /\ gentle base h h' /\ hold base h' L end).
  { intros K1 K2. cbn [N.eqb]. assert (X : exists z, set_by_text None a (x ++ B) (blen x) = Ok ((-1)%Z, z)).
    { pose proof (set_by_text_spec init_voucher a x B Ha Hx) as S. destruct a; cbn [kind] in K1, K2; try congruence; cbn [set_by_text] in *.
      - unfold set_attr_strtime in *. destruct (str_upto (x ++ B) (N.to_nat (blen x))) as [y|]; cbn [obind] in *; [|destruct S as [(? & _ & S)|(_ & S)]; discriminate S].
        destruct (serialize_str2time (Some (firstn 63 y))) as [t|]; eexists; reflexivity.
      - unfold set_attr_strtime in *. destruct (str_upto (x ++ B) (N.to_nat (blen x))) as [y|]; cbn [obind] in *; [|destruct S as [(? & _ & S)|(_ & S)]; discriminate S].
        destruct (serialize_str2time (Some (firstn 63 y))) as [t|]; eexists; reflexivity.
      - unfold set_attr_strenum in *. rewrite !check_size_spec in * by assumption. cbn [obind] in *. repeat match goal with |- context [if beqb ?p ?q then _ else _] => destruct (beqb p q) end; eexists; reflexivity.
      - unfold set_attr_strbool in *. revert S. match goal with |- context [serialize_str2bool ?m ?n] => destruct (serialize_str2bool m n) as [z|k] end; cbn [obind]; intros S; [|exfalso; destruct S as [(? & _ & S)|(_ & S)]; discriminate S].
        destruct (z <? 0)%Z; eexists; reflexivity.
      - unfold set_attr_strtime in *. destruct (str_upto (x ++ B) (N.to_nat (blen x))) as [y|]; cbn [obind] in *; [|destruct S as [(? & _ & S)|(_ & S)]; discriminate S].
        destruct (serialize_str2time (Some (firstn 63 y))) as [t|]; eexists; reflexivity.
      - eexists. reflexivity. }
    destruct X as [z ->]. cbn [obind fst]. split; [reflexivity|]. split; [apply gentle_refl|exact H]. }
  assert (Arr : match h_set_attr_base64 h 0 a (x ++ B) (blen x) with UB k => k = NullDeref | Ok (rc, h') => rc = (-1)%Z /\ gentle base h h' /\ hold base h' L end).
  { unfold h_set_attr_base64. rewrite take_mem_app. cbn [obind]. unfold h_base64str2array. destruct (hp_oom h (hp_next h)) eqn:Oom; cbn [negb].
    - rewrite decode_no_mem by (apply cstr_bytes; exact Hx). cbn [obind Z.ltb Z.compare]. destruct (hold_alloc base h L (Buf []) H) as (c & h1 & E & X1 & Hn & Cs). rewrite E. cbn [snd].
      split; [reflexivity|]. split; [eapply gentle_ext; eassumption|]. destruct Cs as [(_ & _ & _ & Q)|(_ & _ & Q & _)]; [exact Q|congruence].
    - rewrite decode_spec by (apply cstr_bytes; exact Hx). destruct (rfc_decode x) as [d|] eqn:Ed; cbn [obind].
      + destruct (hold_alloc base h L (Buf d) H) as (c & h1 & E & X1 & Hn & Cs). rewrite E. cbn [obind]. destruct Cs as [(_ & Q & _)|(_ & C0 & _ & Cc & _ & H1)]; [congruence|].
        destruct (Z.of_N (blen d) <? 0)%Z eqn:En; [lia|]. destruct (local h1 (Struct [P c; I (Z.of_N (blen d))])) as [s h2] eqn:El.
        destruct (hold_local _ _ _ _ _ _ H1 El) as (H2 & X2 & Es & Cs). destruct (hold_in _ _ _ s H2 (or_introl eq_refl)) as (_ & S0 & _).
        unfold h_set_attr_array. cbn [N.eqb obind fst snd]. unfold h_free_binary_array_content. cbn [fst snd]. rewrite (proj2 (N.eqb_neq _ _) S0).
        rewrite (get_ptr_at h2 s _ 0%nat c S0 Cs eq_refl). cbn [obind]. rewrite (proj2 (N.eqb_neq _ _) C0).
        pose proof (hold_perm _ _ _ _ (perm_swap c s L) H2) as H2'. destruct (hold_free _ _ _ _ H2') as [F1 H3]. rewrite F1. cbn [obind].
        assert (Hsc : s <> c). { destruct H2 as (_ & _ & D & _). apply NoDup_cons_iff in D. destruct D as [D _]. intros ->. apply D. left. reflexivity. }
        assert (Cs3 : hp_cell (put h2 c Freed) s = Live (Struct [P c; I (Z.of_N (blen d))])) by (rewrite put_other by exact Hsc; exact Cs).
        rewrite (set_field_at _ s _ 0%nat (P 0) _ S0 Cs3 eq_refl). cbn [obind set_nthv].
        pose proof (hold_put _ _ _ s (Struct [P 0; I (Z.of_N (blen d))]) H3 (or_introl eq_refl)) as H4.
        change (0 + 1)%nat with 1%nat. rewrite (set_field_at _ s [P 0; I (Z.of_N (blen d))] 1%nat (I 0) _ S0 (put_same _ _ _) eq_refl). cbn [obind set_nthv].
        pose proof (hold_put _ _ _ s (Struct [P 0; I 0]) H4 (or_introl eq_refl)) as H5. destruct (hold_free _ _ _ _ H5) as [F2 H6]. rewrite F2. cbn [obind Z.ltb Z.compare].
        split; [reflexivity|]. split; [|exact H6].
        pose proof (gentle_ext _ _ _ _ H (ext_trans _ _ _ X1 X2)) as (K & Ho & Hm). pose proof H as (_ & B0 & _).
        destruct (hold_in _ _ _ s H2 (or_introl eq_refl)) as (_ & _ & _ & Sb). destruct (hold_in _ _ _ c H2 (or_intror (or_introl eq_refl))) as (_ & _ & _ & Cb).
        split; [|split; [exact Ho|exact Hm]]. intros y Hy. rewrite !put_other by lia. apply K. exact Hy.
      + destruct (filter b64_relevant x) as [|y l]; cbn [obind].
        * cbn [Z.ltb Z.compare]. split; [reflexivity|]. split; [apply gentle_refl|exact H].
        * destruct (hold_alloc base h L (Buf []) H) as (c & h1 & E & X1 & Hn & Cs). rewrite E. destruct Cs as [(_ & Q & _)|(_ & C0 & _ & Cc & _ & H1)]; [congruence|].
          destruct (hold_free _ _ _ _ H1) as [F1 H2]. rewrite F1. cbn [obind Z.ltb Z.compare]. split; [reflexivity|]. split; [|exact H2].
          destruct (gentle_ext _ _ _ _ H X1) as (K & Ho & Hm). destruct (hold_in _ _ _ c H1 (or_introl eq_refl)) as (_ & _ & _ & Cb).
          split; [|split; [exact Ho|exact Hm]]. intros z Hz. rewrite put_other by lia. apply K. exact Hz. }
  destruct a; cbn [h_set_by_text]; try (apply Plain; discriminate); try exact Arr.
  unfold h_set_attr_nstr. destruct (blen x <? 128) eqn:E; [|split; [reflexivity|split; [apply gentle_refl|exact H]]].
  unfold heap_strndup. destruct (hp_oom h (hp_next h)) eqn:Oom; cbn [negb].
  - cbn [sys_strndup negb obind]. destruct (alloc h (Buf [])) as [c h1]. cbn [snd obind]. reflexivity.
  - destruct (strndup_readable (x ++ B) (blen x)) as [b [Eb _]]; [rewrite blen_app; lia|unfold SIZE_MAX; lia|]. rewrite Eb. cbn [obind]. destruct (alloc h (Buf b)) as [c h1]. reflexivity.
Qed.

Lemma nowhere_keyvalue : forall l base h L k rk x rx, hold base h L -> (forall a, In a l -> In a all_attrs) -> cstr_ok k -> cstr_ok x ->
  match h_set_keyvalue l h 0 (k ++ rk) (blen k) (x ++ rx) (blen x) with
  | UB e => e = NullDeref
  | Ok (rc, h') => rc = (-1)%Z /\ gentle base h h' /\ hold base h' L
  end.
Proof.
  induction l as [|a l IH]; intros base h L k rk x rx H Hall Hk Hx; cbn [h_set_keyvalue].
  - split; [reflexivity|]. split; [apply gentle_refl|exact H].
  - rewrite check_size_spec by assumption. cbn [obind]. destruct (beqb (attr_name a) k).
    + pose proof (nowhere_text base h L a x rx H (Hall a (or_introl eq_refl)) Hx) as X. destruct (h_set_by_text h 0 a (x ++ rx) (blen x)) as [[rc h']|e]; cbn [obind fst snd]; [|exact X].
      destruct X as (-> & X). split; [reflexivity|exact X].
    + apply IH; [exact H|intros b Hb; apply Hall; right; exact Hb|exact Hk|exact Hx].
Qed.

Lemma nowhere_pairs : forall J toks idx n j base h L, toks_ok J toks -> blen J < 2147483648 -> hold base h L -> nowhere base h L (h_read_pairs J toks idx n j h 0).
Proof.
  intros J toks idx n j base h L Ht HJ H. destruct n as [|n]; cbn [h_read_pairs]; [split; [apply gentle_refl|exact H]|].
  destruct (nth_error toks (idx + j * 2 + 1)) as [k|] eqn:Ek; [|split; [apply gentle_refl|exact H]].
  destruct (nth_error toks (idx + (j * 2 + 1) + 1)) as [x|] eqn:Ex; [|split; [apply gentle_refl|exact H]].
  destruct (nth_toks_ok _ _ _ _ Ht Ek) as [kt [kB [K1 [K2 [K3 K4]]]]]. destruct (nth_toks_ok _ _ _ _ Ht Ex) as [xt [xB [X1 [X2 [X3 X4]]]]].
  rewrite K3, X3. cbn [obind]. rewrite (K4 HJ), (X4 HJ).
  pose proof (nowhere_keyvalue all_attrs base h L kt kB xt xB H (fun a Ha => Ha) K2 X2) as X. destruct (h_set_keyvalue all_attrs h 0 (kt ++ kB) (blen kt) (xt ++ xB) (blen xt)) as [[rc h']|e]; cbn [obind fst snd]; [|exact X].
  destruct X as (-> & X). cbn [Z.ltb Z.compare]. exact X.
Qed.

Lemma nowhere_root : forall J toks base h L, toks_ok J toks -> blen J < 2147483648 -> hold base h L ->
  forall rest idx, (forall t, In t rest -> In t toks) -> nowhere base h L (h_find_root J toks rest idx h 0).
Proof.
  intros J toks base h L Ht HJ H. assert (No : nowhere base h L (Ok (false, h))) by (split; [apply gentle_refl|exact H]).
  induction rest as [|t rest IH]; intros idx Hin; cbn [h_find_root]; [exact No|].
  assert (Hi : In t toks) by (apply Hin; left; reflexivity). apply In_nth_error in Hi. destruct Hi as [i Hi].
  destruct (nth_toks_ok _ _ _ _ Ht Hi) as [x [B [X1 [X2 [X3 X4]]]]]. rewrite X3. cbn [obind]. rewrite (X4 HJ), root_prefix by assumption. cbn [obind].
  destruct (beqb x (firstn (List.length x) root_name)).
  - destruct (nth_error toks (S idx)) as [o|]; [|exact No]. destruct (tk_type o); try exact No. apply nowhere_pairs; assumption.
  - apply IH. intros u Hu. apply Hin. right. exact Hu.
Qed.

(** *** Releasing a voucher leaves the rest as it is *)
Definition soft (v : N) (h h' : heap) : Prop :=
  hp_next h' = hp_next h /\ hp_oom h' = hp_oom h /\ (forall a, hp_cell h a = Fresh -> hp_cell h' a = Fresh) /\
  forall a, a <> v -> hp_cell h' a = hp_cell h a \/ hp_cell h' a = Freed.
Lemma soft_refl : forall v h, soft v h h.
Proof. intros v h. repeat split; auto. Qed.
Lemma soft_trans : forall v h1 h2 h3, soft v h1 h2 -> soft v h2 h3 -> soft v h1 h3.
Proof.
  intros v h1 h2 h3 (A1 & A2 & A3 & A4) (B1 & B2 & B3 & B4). split; [congruence|]. split; [congruence|]. split; [auto|].
  intros a Ha. destruct (B4 a Ha) as [E|E]; [|auto]. rewrite E. apply A4. exact Ha.
Qed.
Lemma soft_free : forall v h p h', sys_free h p = Ok h' -> soft v h h'.
Proof.
  intros v h p h' H. unfold sys_free in H. destruct (p =? 0); [injection H as <-; apply soft_refl|]. destruct (hp_cell h p) as [|b|] eqn:C; try discriminate. injection H as <-.
  split; [reflexivity|]. split; [reflexivity|]. split.
  - intros a Ha. rewrite put_other; [exact Ha|]. congruence.
  - intros a _. destruct (N.eq_dec a p) as [->|Hne]; [right; apply put_same|left; apply put_other; exact Hne].
Qed.
Lemma soft_field : forall v h i x h', set_field h v i x = Ok h' -> soft v h h'.
Proof.
  intros v h i x h' H. unfold set_field, load in H. destruct (v =? 0); [discriminate|]. destruct (hp_cell h v) as [|[d|fs]|] eqn:C; try discriminate. cbn [obind] in H.
  destruct (nth_error fs i); [|discriminate]. injection H as <-. split; [reflexivity|]. split; [reflexivity|]. split.
  - intros a Ha. rewrite put_other; [exact Ha|]. congruence.
  - intros a Ha. left. apply put_other. exact Ha.
Qed.
Lemma soft_content : forall v i h h', h_free_binary_array_content h (v, i) = Ok h' -> soft v h h'.
Proof.
  intros v i h h' H. unfold h_free_binary_array_content in H. cbn [fst snd] in H. destruct (v =? 0); [injection H as <-; apply soft_refl|].
  destruct (get_ptr h v i) as [p|]; [|discriminate]. cbn [obind] in H. destruct (p =? 0).
  - cbn [obind] in H. eapply soft_field. exact H.
  - destruct (sys_free h p) as [h1|] eqn:E1; [|discriminate]. cbn [obind] in H. destruct (set_field h1 v i (P 0)) as [h2|] eqn:E2; [|discriminate]. cbn [obind] in H.
    eapply soft_trans; [eapply soft_free; exact E1|]. eapply soft_trans; [eapply soft_field; exact E2|]. eapply soft_field. exact H.
Qed.
Lemma soft_voucher : forall v h h', h_free_voucher h v = Ok h' -> soft v h h'.
Proof.
  intros v h h' H. unfold h_free_voucher in H. destruct (v =? 0); [injection H as <-; apply soft_refl|]. destruct (get_ptr h v 0) as [p|]; [|discriminate]. cbn [obind] in H.
  assert (S1 : forall r h1, r = (if p =? 0 then Ok h else obind (sys_free h p) (fun h => set_field h v 0 (P 0))) -> r = Ok h1 -> soft v h h1).
  { intros r h1 -> E. destruct (p =? 0); [injection E as <-; apply soft_refl|]. destruct (sys_free h p) as [h2|] eqn:E1; [|discriminate]. cbn [obind] in E.
    eapply soft_trans; [eapply soft_free; exact E1|eapply soft_field; exact E]. }
  destruct (if p =? 0 then Ok h else obind (sys_free h p) (fun h => set_field h v 0 (P 0))) as [h1|]; [|discriminate]. specialize (S1 _ h1 eq_refl eq_refl). cbn [obind] in H.
  destruct (h_free_binary_array_content h1 (v, 1%nat)) as [h2|] eqn:E2; [|discriminate]. cbn [obind] in H.
  destruct (h_free_binary_array_content h2 (v, 3%nat)) as [h3|] eqn:E3; [|discriminate]. cbn [obind] in H.
  destruct (h_free_binary_array_content h3 (v, 5%nat)) as [h4|] eqn:E4; [|discriminate]. cbn [obind] in H.
  destruct (h_free_binary_array_content h4 (v, 7%nat)) as [h5|] eqn:E5; [|discriminate]. cbn [obind] in H.
  destruct (h_free_binary_array_content h5 (v, 9%nat)) as [h6|] eqn:E6; [|discriminate]. cbn [obind] in H.
  eapply soft_trans; [exact S1|]. eapply soft_trans; [eapply soft_content; exact E2|]. eapply soft_trans; [eapply soft_content; exact E3|]. eapply soft_trans; [eapply soft_content; exact E4|].
  eapply soft_trans; [eapply soft_content; exact E5|]. eapply soft_trans; [eapply soft_content; exact E6|]. eapply soft_free. exact H.
Qed.
Lemma free_hold : forall base h v f lk, vstate base h v f lk ->
  exists h', h_free_voucher h v = Ok h' /\ gentle base h h' /\ hp_next h' = hp_next h /\ hold base h' lk /\ (forall a, is_live h' a -> hp_cell h' a = hp_cell h a).
Proof.
  intros base h v f lk Hs. destruct (free_step _ _ _ _ _ Hs) as (h' & E & G & D & B & L). exists h'. split; [exact E|]. split; [exact G|].
  pose proof (soft_voucher _ _ _ E) as (S1 & S2 & S3 & S4). split; [exact S1|]. pose proof Hs as [fs [(W & Bn & V & C & Sh & Dn & Gn & Ln) _]].
  split.
  - split; [|split; [lia|auto]]. destruct W as (W1 & W2 & W3). split; [lia|]. split; [apply S3; exact W2|]. intros a Ha. apply S3. apply W3. lia.
  - intros a Hl. destruct (N.eq_dec a v) as [->|Hne].
    + exfalso. assert (Bv : base <= v) by (apply Gn; left; reflexivity). apply (L v Bv) in Hl. apply NoDup_cons_iff in Dn. apply (proj1 Dn). apply in_or_app. right. exact Hl.
    + destruct (S4 a Hne) as [Q|Q]; [exact Q|]. destruct Hl as [b Hb]. congruence.
Qed.

Definition reads (h0 : heap) (js : bytes) (r : outcome (N * heap)) : Prop :=
  match r with
  | UB k => k = NullDeref /\ starved h0
  | Ok (v, h) => gentle (hp_next h0) h0 h /\
    ((v = 0 /\ (deserialize_voucher true (Some js) = Ok None \/ refused h0 h) /\ exists lk, hold (hp_next h0) h lk /\ (unrepeated js -> lk = [])) \/
     (v <> 0 /\ exists f lk w, vstate (hp_next h0) h v f lk /\ deserialize_voucher true (Some js) = Ok (Some w) /\ agrees f w /\ (unrepeated js -> lk = [])))
  end.

Lemma deserialize_oom : forall js h0, bytes_ok js -> blen js < 2147483648 -> heap_wf h0 -> reads h0 js (h_deserialize_voucher h0 js).
Proof.
  intros js h0 Hb HJ W. unfold reads, h_deserialize_voucher, deserialize_voucher.
  assert (Hnil : forall (r : outcome (option voucher)), r = Ok None -> gentle (hp_next h0) h0 h0 /\
    ((0 = 0 /\ (r = Ok None \/ refused h0 h0) /\ exists lk, hold (hp_next h0) h0 lk /\ (unrepeated js -> lk = [])) \/
     (0 <> 0 /\ exists f lk w, vstate (hp_next h0) h0 0 f lk /\ r = Ok (Some w) /\ agrees f w /\ (unrepeated js -> lk = [])))).
  { intros r ->. split; [apply gentle_refl|]. left. split; [reflexivity|]. split; [left; reflexivity|]. exists []. split; [apply hold_init; exact W|reflexivity]. }
  destruct (jsmn_parse js 32) as [toks|] eqn:E; [|apply Hnil; reflexivity].
  pose proof (tokens_text _ _ _ Hb E) as Ht. destruct (parse_place _ _ _ E) as [q Hpl].
  destruct toks as [|t0 rest]; [apply Hnil; reflexivity|]. destruct (tk_type t0); try (apply Hnil; reflexivity). clear Hnil.
  destruct (h_init_voucher h0) as [v h1] eqn:Ei.
  destruct (hold_alloc _ _ _ v_node (hold_init _ W)) as (v' & h1' & Ea & X1 & Hn & Cs). unfold h_init_voucher in Ei. rewrite Ei in Ea. injection Ea as <- <-.
  destruct Cs as [(-> & Oom & _ & H1)|(Hv & V0 & Oom & _)].
  - pose proof (nowhere_root js (t0 :: rest) _ h1 [] Ht HJ H1 rest 1%nat (fun t Ht => or_intror Ht)) as X. pose proof (gentle_ext _ _ _ _ (hold_init _ W) X1) as G1.
    destruct (h_find_root js (t0 :: rest) rest 1%nat h1 0) as [[ok h2]|k]; cbn [obind].
    + destruct X as [G2 H2]. assert (R : refused h0 h2) by (apply refused_here; [exact Oom|destruct G2 as (_ & _ & Y); lia]).
      assert (D : gentle (hp_next h0) h0 h2 /\
        ((0 = 0 /\ ((obind (find_root js (t0 :: rest) rest 1%nat (Some init_voucher)) (fun r => if fst r then Ok (snd r) else Ok None)) = Ok None \/ refused h0 h2) /\ exists lk, hold (hp_next h0) h2 lk /\ (unrepeated js -> lk = [])) \/
         (0 <> 0 /\ exists f lk w, vstate (hp_next h0) h2 0 f lk /\ (obind (find_root js (t0 :: rest) rest 1%nat (Some init_voucher)) (fun r => if fst r then Ok (snd r) else Ok None)) = Ok (Some w) /\ agrees f w /\ (unrepeated js -> lk = [])))).
      { split; [eapply gentle_trans; eassumption|]. left. split; [reflexivity|]. split; [right; exact R|]. exists []. auto. }
      cbn [fst snd]. destruct ok; [exact D|]. unfold h_free_voucher. cbn [N.eqb obind]. exact D.
    + split; [exact X|]. eapply refused_starved. apply refused_here with (h' := h1); [exact Oom|lia].
  - destruct (init_state _ _ _ W Ei V0) as [Hs G1].
    destruct (find_root_exact js (t0 :: rest) q Ht HJ E Hpl rest 1%nat (hp_next h0) h1 v []) as (ok & h2 & f & lk & Er & G2 & Hs2 & Q & Hu); [lia|intros t Hin; right; exact Hin|exact Hs|].
    rewrite Er. cbn [obind fst snd]. assert (Hu' : unrepeated js -> lk = []) by (intros Y; specialize (Hu Y); destruct lk; [reflexivity|discriminate]).
    destruct ok.
    + split; [eapply gentle_trans; eassumption|]. right. split; [exact V0|]. destruct Q as [(w & Ew & Ha)|[Q _]]; [|discriminate]. exists f, lk, w. split; [exact Hs2|]. rewrite Ew. cbn [obind fst snd]. auto.
    + destruct (free_hold _ _ _ _ _ Hs2) as (h3 & E3 & G3 & _ & H3 & _). rewrite E3. cbn [obind].
      split; [eapply gentle_trans; [exact G1|]; eapply gentle_trans; eassumption|]. left. split; [reflexivity|]. split; [|exists lk; auto].
      destruct Q as [(w & Ew & _)|[_ R]]; [left; rewrite Ew; reflexivity|right]. destruct R as (a & Ha & Ra). exists a. destruct G1 as (_ & Go1 & Gn1). destruct G3 as (_ & _ & Gn3). split; [lia|]. rewrite <- Go1. exact Ra.
Qed.
