(** Proofs: the memory of vouchers read from JSON. *)
From Coq Require Import Permutation ZifyBool ZifyNat ZifyN.
From Verif Require Import Base PBase MBase64 SBase64 PBase64 MSerialize SSerialize PSerialize MOs POs
  MJsmn PJsmn MVoucher SVoucher PVoucher SJson PVoucherText PJsonTok PJsonPrefix PVoucherJson PVoucherPrefix
  MHeap MVoucherHeap SHeap SArray SVoucherHeap PHeap PArray PVoucherHeap.
Open Scope N_scope.

(** *** Blocks the voucher does not own *)
Lemma owned_not_lk : forall base h v fs lk i x, core base h v fs lk -> In i pf -> ptr_at fs i <> 0 -> In x lk -> ptr_at fs i <> x.
Proof.
  intros base h v fs lk i x (W & B & V & C & S & D & G & L) Hi Hp Hx E. apply NoDup_cons_iff in D. destruct D as [_ D]. pose proof (own_in fs i Hi Hp) as Ho. rewrite E in Ho.
  clear - D Ho Hx. induction (own pf fs) as [|y l IH]; [contradiction|]. cbn in D. apply NoDup_cons_iff in D. destruct D as [D1 D2]. destruct Ho as [->|Ho]; [apply D1; apply in_or_app; right; exact Hx|]. apply IH; assumption.
Qed.

Lemma vals_same : forall base h v fs lk h' f, core base h v fs lk -> vals h fs f ->
  (forall i, In i pf -> ptr_at fs i <> 0 -> hp_cell h' (ptr_at fs i) = hp_cell h (ptr_at fs i)) -> vals h' fs f.
Proof.
  intros base h v fs lk h' f Hc [V1 V2] K. split.
  - unfold ser_at in *. destruct (f ASerial) as [s|]; [|exact V1]. destruct V1 as [P1 [d [P2 P3]]]. split; [exact P1|]. exists d. rewrite K; [auto|left; reflexivity|exact P1].
  - intros a i Hi. specialize (V2 a i Hi). unfold arr_at in *. destruct (f a) as [d|]; [|exact V2]. destruct V2 as [P1 [P2 P3]]. split; [exact P1|]. split; [|exact P3]. rewrite K; [exact P2|apply (arr_field_in _ _ Hi)|exact P1].
Qed.

Lemma owned_live : forall base h v fs lk i, core base h v fs lk -> In i pf -> ptr_at fs i <> 0 -> is_live h (ptr_at fs i).
Proof. intros. eapply own_live; eassumption. Qed.

Lemma vstate_alloc : forall base h v f lk b c h', vstate base h v f lk -> alloc h b = (c, h') -> vstate base h' v f (nz c ++ lk) /\ gentle base h h'.
Proof.
  intros base h v f lk b c h' [fs [Hc Hv]] E. pose proof Hc as (W & B & _). destruct (alloc_cases h b W) as [a [h1 [Ea [W1 [Hn [Ho Cs]]]]]]. rewrite E in Ea. injection Ea as <- <-.
  assert (K : forall x, is_live h x -> hp_cell h' x = hp_cell h x).
  { intros x [y Hy]. destruct Cs as [[_ [_ X]]|[_ [_ [_ [_ [X1 X2]]]]]]; [apply X|apply X2; congruence]. }
  split.
  - exists fs. split; [eapply core_alloc; eassumption|]. eapply vals_same; [exact Hc|exact Hv|]. intros i Hi Hp. apply K. eapply owned_live; eassumption.
  - split; [|split; [exact Ho|lia]]. intros x Hx. destruct Cs as [[_ [_ X]]|[X0 [_ [_ [_ [_ X2]]]]]]; [apply X|apply X2; lia].
Qed.

Lemma vstate_free : forall base h v f lk p, vstate base h v f (p :: lk) -> p <> 0 ->
  sys_free h p = Ok (put h p Freed) /\ vstate base (put h p Freed) v f lk /\ gentle base h (put h p Freed).
Proof.
  intros base h v f lk p [fs [Hc Hv]] P0. destruct (core_free _ _ _ _ _ _ Hc P0) as [E C']. split; [exact E|]. split.
  - exists fs. split; [exact C'|]. eapply vals_same; [exact Hc|exact Hv|]. intros i Hi Hp. apply put_other. eapply owned_not_lk; [exact Hc|exact Hi|exact Hp|left; reflexivity].
  - split; [|split; [reflexivity|cbn; lia]]. intros x Hx. apply put_other. destruct Hc as (_ & _ & _ & _ & _ & _ & G & _). assert (base <= p) by (apply G; right; apply in_or_app; right; left; reflexivity). lia.
Qed.

Lemma vstate_write : forall base h v f lk s b, vstate base h v f lk -> In s lk -> vstate base (put h s (Live b)) v f lk /\ gentle base h (put h s (Live b)).
Proof.
  intros base h v f lk s b [fs [Hc Hv]] Hs. pose proof Hc as (W & B & V & C & S & D & G & L).
  assert (Hin : In s (v :: own pf fs ++ lk)) by (right; apply in_or_app; right; exact Hs).
  destruct (proj2 (L s (G s Hin)) Hin) as [b0 Hb0].
  assert (Hsv : v <> s). { intros ->. apply NoDup_cons_iff in D. apply (proj1 D). apply in_or_app. right. exact Hs. }
  split.
  - exists fs. split.
    + split; [eapply put_live_wf; eassumption|]. split; [exact B|]. split; [exact V|]. split; [rewrite put_other by exact Hsv; exact C|]. split; [exact S|]. split; [exact D|]. split; [exact G|].
      intros a Ha. rewrite <- (L a Ha). unfold is_live. destruct (N.eq_dec a s) as [->|Hne]; [rewrite put_same, Hb0; split; intros _; eauto|rewrite put_other by exact Hne; reflexivity].
    + eapply vals_same; [exact Hc|exact Hv|]. intros i Hi Hp. apply put_other. eapply owned_not_lk; eassumption.
  - split; [|split; [reflexivity|cbn; lia]]. intros x Hx. apply put_other. pose proof (G s Hin). lia.
Qed.

(** Automatic variables behave like blocks that are always granted. *)
Lemma local_alloc : forall h b, alloc (mk_heap (hp_next h) (hp_cell h) (fun _ => false)) b = (fst (local h b), mk_heap (hp_next (snd (local h b))) (hp_cell (snd (local h b))) (fun _ => false)).
Proof. intros h b. reflexivity. Qed.

Lemma vstate_oom : forall base h v f lk o, vstate base h v f lk -> vstate base (mk_heap (hp_next h) (hp_cell h) o) v f lk.
Proof.
  intros base h v f lk o [fs [Hc Hv]]. exists fs. split; [eapply core_ext; [| |exact Hc]; reflexivity|]. eapply vals_same; [exact Hc|exact Hv|]. reflexivity.
Qed.

Lemma vstate_local : forall base h v f lk b s h', vstate base h v f lk -> local h b = (s, h') ->
  vstate base h' v f (s :: lk) /\ gentle base h h' /\ s <> 0 /\ hp_cell h' s = Live b /\ s <> v /\ (forall x, is_live h x -> hp_cell h' x = hp_cell h x).
Proof.
  intros base h v f lk b s h' Hs E. pose proof (vstate_oom _ _ _ _ _ (fun _ => false) Hs) as Hs1.
  pose proof (local_alloc h b) as Ea. rewrite E in Ea. cbn [fst snd] in Ea. destruct (vstate_alloc _ _ _ _ _ _ _ _ Hs1 Ea) as [Hs2 G2].
  unfold local in E. injection E as <- <-. destruct Hs as [fs [Hc _]]. pose proof Hc as (W & B & _ & Cv & _). assert (S0 : hp_next h <> 0) by (destruct W; lia).
  split; [|split; [|split; [exact S0|]]].
  - apply (vstate_oom _ _ _ _ _ (hp_oom h)) in Hs2. cbn [hp_next hp_cell] in Hs2. unfold nz in Hs2. rewrite (proj2 (N.eqb_neq _ _) S0) in Hs2. exact Hs2.
  - destruct G2 as [K2 [_ N2]]. split; [exact K2|]. split; [reflexivity|exact N2].
  - split; [cbn; rewrite N.eqb_refl; reflexivity|]. split; [intros X; destruct (wf_live _ _ _ W Cv); lia|]. intros x [y Hy]. cbn. rewrite (proj2 (N.eqb_neq x (hp_next h))); [reflexivity|]. intros ->. destruct (wf_live _ _ _ W Hy). lia.
Qed.

Lemma vstate_perm : forall base h v f lk lk', Permutation lk lk' -> vstate base h v f lk -> vstate base h v f lk'.
Proof. intros base h v f lk lk' Hp [fs [Hc Hv]]. exists fs. split; [eapply core_perm; eassumption|exact Hv]. Qed.

(** *** The parsing setters *)
Definition put_f (f : attrs) (a : attr) (p : pval) : attrs :=
  match p with PStr s => upd f a (Some s) | PArr d => upd f a (Some d) | _ => f end.
Definition over (f : attrs) (a : attr) (p : pval) : nat :=
  match p with PStr _ | PArr _ => held (f a) | _ => 0%nat end.

Definition text_outcome (base : N) (h : heap) (v : N) (f : attrs) (lk : list N) (a : attr) (x : bytes) (r : outcome (Z * heap)) : Prop :=
  exists rc h' f' lk', r = Ok (rc, h') /\ gentle base h h' /\ vstate base h' v f' lk' /\ (rc = 0%Z \/ rc = (-1)%Z) /\
    (plenty h -> (exists p, value_ok a x p /\ rc = 0%Z /\ f' = put_f f a p /\ List.length lk' = (over f a p + List.length lk)%nat) \/
                 ((forall p, ~ value_ok a x p) /\ rc = (-1)%Z /\ f' = f /\ List.length lk' = List.length lk)).

Lemma c_string_cstr : forall x, cstr_ok x -> c_string x = x.
Proof. intros x H. induction H as [|c r Hc Hr IH]; [reflexivity|]. cbn [c_string]. destruct (c =? 0) eqn:E; [lia|]. rewrite IH. reflexivity. Qed.

Lemma serial_text : forall base h v f lk x B, vstate base h v f lk -> cstr_ok x ->
  text_outcome base h v f lk ASerial x (h_set_attr_nstr h v (Some (x ++ B)) (blen x)).
Proof.
  intros base h v f lk x B Hs Hx. pose proof (set_nstr_step base h v f lk (x ++ B) (blen x) Hs) as X. rewrite blen_app in X. specialize (X ltac:(lia)).
  destruct (blen x <? 128) eqn:E.
  - replace (firstn (N.to_nat (blen x)) (x ++ B)) with x in X by (unfold blen; rewrite Nat2N.id, firstn_app, firstn_all, Nat.sub_diag; cbn; rewrite app_nil_r; reflexivity).
    rewrite c_string_cstr in X by exact Hx. destruct X as (rc & h' & old & Er & G & _ & [_ L] & Cs).
    destruct Cs as [(-> & Oom & Hs')|(-> & Oom & Hs')].
    + exists (-1)%Z, h', (upd f ASerial None), (old ++ lk). repeat (split; [assumption|]). split; [auto|]. intros Pl. rewrite Pl in Oom. discriminate.
    + exists 0%Z, h', (upd f ASerial (Some x)), (old ++ lk). repeat (split; [assumption|]). split; [auto|]. intros _. left. exists (PStr x). cbn [value_ok kind put_f over]. split; [split; [lia|reflexivity]|]. rewrite app_length, L. auto.
  - exists (-1)%Z, h, f, lk. split; [exact X|]. split; [apply gentle_refl|]. split; [exact Hs|]. split; [auto|]. intros _. right. split; [|auto]. intros p [Q _]. lia.
Qed.

Lemma array_text : forall base h v f lk a i x B, vstate base h v f lk -> cstr_ok x -> arr_field a = Some i ->
  text_outcome base h v f lk a x (h_set_attr_base64 h v a (x ++ B) (blen x)).
Proof.
  intros base h v f lk a i x B Hs Hx Hi. unfold h_set_attr_base64. rewrite take_mem_app. cbn [obind]. unfold h_base64str2array.
  assert (Hk : kind a = KArr) by (destruct a; try discriminate; reflexivity).
  destruct (hp_oom h (hp_next h)) eqn:Oom; cbn [negb].
  - rewrite decode_no_mem by (apply cstr_bytes; exact Hx). cbn [obind Z.ltb Z.compare]. destruct (alloc h (Buf [])) as [c h1] eqn:Ea. cbn [snd].
    destruct (vstate_alloc _ _ _ _ _ _ _ _ Hs Ea) as [Hs1 G1]. unfold alloc in Ea. rewrite Oom in Ea. injection Ea as <- <-. cbn [nz N.eqb app] in Hs1.
    eexists _, _, f, lk. split; [reflexivity|]. split; [exact G1|]. split; [exact Hs1|]. split; [auto|]. intros Pl. rewrite Pl in Oom. discriminate.
  - rewrite decode_spec by (apply cstr_bytes; exact Hx). destruct (rfc_decode x) as [d|] eqn:Ed; cbn [obind].
    + destruct (alloc h (Buf d)) as [c h1] eqn:Ea. cbn [obind]. destruct (vstate_alloc _ _ _ _ _ _ _ _ Hs Ea) as [Hs1 G1].
      pose proof Hs as [fs0 [(W & _) _]]. destruct (alloc_cases h (Buf d) W) as [c' [h1' [Ea' [W1 [Hn1 [Ho1 Cs]]]]]]. rewrite Ea in Ea'. injection Ea' as <- <-.
      destruct Cs as [[_ [X _]]|[Hc [C0 [_ [Cc [Cf Cx]]]]]]; [congruence|].
      unfold nz in Hs1. rewrite (proj2 (N.eqb_neq _ _) C0) in Hs1. cbn [app] in Hs1.
      destruct (Z.of_N (blen d) <? 0)%Z eqn:En; [lia|].
      destruct (local h1 (Struct [P c; I (Z.of_N (blen d))])) as [s h2] eqn:El. destruct (vstate_local _ _ _ _ _ _ _ _ Hs1 El) as (Hs2 & G2 & S0 & Cs & Sv & K2).
      assert (Cc2 : hp_cell h2 c = Live (Buf d)) by (rewrite K2; [exact Cc|eexists; exact Cc]).
      assert (Hok : array_ok h2 s 0%nat).
      { right. eexists _, c, (blen d). split; [exact Cs|]. split; [exact S0|]. split; [reflexivity|]. split; [reflexivity|]. right. split; [exact C0|]. exists d. split; [exact Cc2|lia]. }
      pose proof (set_array_caller _ _ _ _ _ a _ _ Hs2 Hok Sv) as X. unfold is_array in X. rewrite Hi in X.
      rewrite (array_of_at h2 s 0%nat _ c (blen d) S0 Cs eq_refl eq_refl) in X. rewrite (proj2 (N.eqb_neq _ _) C0) in X. unfold content in X. rewrite Cc2 in X.
      rewrite firstn_all2 in X by (unfold blen; lia). destruct X as (rc & h3 & old & Er & G3 & K3 & [_ L] & Cases). rewrite Er. cbn [obind fst snd].
      assert (Cs3 : hp_cell h3 s = Live (Struct [P c; I (Z.of_N (blen d))])) by (rewrite K3; [exact Cs|exact Sv|eexists; exact Cs]).
      assert (R : exists h', (obind (h_free_binary_array_content h3 (s, 0%nat)) (fun h => obind (sys_free h s) (fun h => Ok (if (rc <? 0)%Z then (-1)%Z else 0%Z, h)))) = Ok (rc, h') /\
        gentle base h3 h' /\ forall g, vstate base h3 v g (old ++ s :: c :: lk) -> vstate base h' v g (old ++ lk)).
      { unfold h_free_binary_array_content. cbn [fst snd]. rewrite (proj2 (N.eqb_neq _ _) S0). rewrite (get_ptr_at h3 s _ 0%nat c S0 Cs3 eq_refl). cbn [obind]. rewrite (proj2 (N.eqb_neq _ _) C0).
        assert (Hg : exists g, vstate base h3 v g (old ++ s :: c :: lk)) by (destruct Cases as [(_ & _ & Q)|(_ & _ & Q)]; eauto). destruct Hg as [g0 Hg0].
        assert (Pm : Permutation (old ++ s :: c :: lk) (c :: s :: old ++ lk)).
        { transitivity (s :: c :: old ++ lk); [|apply perm_swap]. transitivity (s :: old ++ c :: lk); [symmetry; apply Permutation_middle|]. constructor. symmetry. apply Permutation_middle. }
        pose proof (vstate_perm _ _ _ _ _ _ Pm Hg0) as Hg1. destruct (vstate_free _ _ _ _ _ _ Hg1 C0) as [F1 [Hg2 Ga]]. rewrite F1. cbn [obind].
        assert (Hsc : s <> c). { intros X. rewrite X in Cs. congruence. }
        set (h4 := put h3 c Freed) in *. assert (Cs4 : hp_cell h4 s = Live (Struct [P c; I (Z.of_N (blen d))])) by (unfold h4; rewrite put_other by exact Hsc; exact Cs3).
        rewrite (set_field_at h4 s _ 0%nat (P 0) _ S0 Cs4 eq_refl). cbn [obind set_nthv]. set (h5 := put h4 s (Live (Struct [P 0; I (Z.of_N (blen d))]))).
        change (0 + 1)%nat with 1%nat. rewrite (set_field_at h5 s [P 0; I (Z.of_N (blen d))] 1%nat (I 0) _ S0 (put_same _ _ _) eq_refl). cbn [obind set_nthv]. set (h6 := put h5 s (Live (Struct [P 0; I 0]))).
        destruct (vstate_write _ _ _ _ _ s (Struct [P 0; I (Z.of_N (blen d))]) Hg2 (or_introl eq_refl)) as [Hg3 Gb]. fold h5 in Hg3, Gb.
        destruct (vstate_write _ _ _ _ _ s (Struct [P 0; I 0]) Hg3 (or_introl eq_refl)) as [Hg4 Gc]. fold h6 in Hg4, Gc.
        destruct (vstate_free _ _ _ _ _ _ Hg4 S0) as [F2 [_ Gd]]. rewrite F2. cbn [obind]. eexists. split.
        - destruct Cases as [(-> & _)|(-> & _)]; reflexivity.
        - split; [eapply gentle_trans; [exact Ga|]; eapply gentle_trans; [exact Gb|]; eapply gentle_trans; [exact Gc|exact Gd]|].
          intros g Hg. pose proof (vstate_perm _ _ _ _ _ _ Pm Hg) as Q1. destruct (vstate_free _ _ _ _ _ _ Q1 C0) as [_ [Q2 _]]. fold h4 in Q2.
          destruct (vstate_write _ _ _ _ _ s (Struct [P 0; I (Z.of_N (blen d))]) Q2 (or_introl eq_refl)) as [Q3 _]. fold h5 in Q3.
          destruct (vstate_write _ _ _ _ _ s (Struct [P 0; I 0]) Q3 (or_introl eq_refl)) as [Q4 _]. fold h6 in Q4. apply (vstate_free _ _ _ _ _ _ Q4 S0). }
      destruct R as [h' [Er' [G4 Hall]]]. exists rc, h'.
      assert (Gt : gentle base h h') by (eapply gentle_trans; [exact G1|]; eapply gentle_trans; [exact G2|]; eapply gentle_trans; [exact G3|exact G4]).
      destruct Cases as [(Hrc & Oom2 & Hs3)|(Hrc & Oom2 & Hs3)].
      * exists (upd f a None), (old ++ lk). split; [exact Er'|]. split; [exact Gt|]. split; [apply Hall; exact Hs3|]. split; [auto|]. intros Pl. rewrite (proj1 (proj2 G2)), (proj1 (proj2 G1)), Pl in Oom2. discriminate.
      * exists (upd f a (Some d)), (old ++ lk). split; [exact Er'|]. split; [exact Gt|]. split; [apply Hall; exact Hs3|]. split; [auto|]. intros _. left. exists (PArr d). unfold value_ok. rewrite Hk. split; [eauto|]. split; [exact Hrc|]. cbn [put_f over]. rewrite app_length, L. auto.
    + assert (Hno : forall p, ~ value_ok a x p) by (intros p Q; unfold value_ok in Q; rewrite Hk in Q; destruct Q as [d [Q _]]; congruence).
      destruct (filter b64_relevant x) as [|y l]; cbn [obind].
      * cbn [Z.ltb Z.compare]. eexists _, _, f, lk. split; [reflexivity|]. split; [apply gentle_refl|]. split; [exact Hs|]. split; [auto|]. intros _. right. auto.
      * destruct (alloc h (Buf [])) as [c h1] eqn:Ea. destruct (vstate_alloc _ _ _ _ _ _ _ _ Hs Ea) as [Hs1 G1].
        assert (C0 : c <> 0). { unfold alloc in Ea. rewrite Oom in Ea. injection Ea as <- _. pose proof Hs as [fs0 [((W & _) & _) _]]. lia. }
        unfold nz in Hs1. rewrite (proj2 (N.eqb_neq _ _) C0) in Hs1. cbn [app] in Hs1. destruct (vstate_free _ _ _ _ _ _ Hs1 C0) as [F1 [Hs2 G2]]. rewrite F1. cbn [obind Z.ltb Z.compare].
        eexists _, _, f, lk. split; [reflexivity|]. split; [eapply gentle_trans; eassumption|]. split; [exact Hs2|]. split; [auto|]. intros _. right. auto.
Qed.

Lemma text_step : forall base h v f lk a x B, vstate base h v f lk -> In a all_attrs -> cstr_ok x ->
  text_outcome base h v f lk a x (h_set_by_text h v a (x ++ B) (blen x)).
Proof.
  intros base h v f lk a x B Hs Ha Hx.
  assert (V0 : v <> 0) by (destruct Hs as [fs [Hc _]]; apply (core_base _ _ _ _ _ Hc)).
  assert (Plain : kind a <> KStr -> kind a <> KArr -> text_outcome base h v f lk a x (obind (set_by_text (if v =? 0 then None else Some init_voucher) a (x ++ B) (blen x)) (fun r => Ok (fst r, h)))).
  { intros K1 K2. rewrite (proj2 (N.eqb_neq _ _) V0). destruct (set_by_text_spec init_voucher a x B Ha Hx) as [[p [Hp ->]]|[Hp ->]]; cbn [obind fst].
    - exists 0%Z, h, f, lk. split; [reflexivity|]. split; [apply gentle_refl|]. split; [exact Hs|]. split; [auto|]. intros _. left. exists p. split; [exact Hp|]. split; [reflexivity|].
      unfold value_ok in Hp. destruct (kind a); try congruence.
      + destruct Hp as [t [_ ->]]. auto.
      + destruct Hp as [[_ ->]|[[_ ->]|[_ ->]]]; auto.
      + destruct Hp as [[_ ->]|[_ ->]]; auto.
      + contradiction.
    - exists (-1)%Z, h, f, lk. split; [reflexivity|]. split; [apply gentle_refl|]. split; [exact Hs|]. split; [auto|]. intros _. right. auto. }
  destruct a; cbn [h_set_by_text]; try (apply Plain; discriminate); try (eapply array_text; [exact Hs|exact Hx|reflexivity]).
  apply serial_text; assumption.
Qed.

Definition pair_outcome (base : N) (h : heap) (v : N) (f : attrs) (lk : list N) (attrs0 : list attr) (k x : bytes) (r : outcome (Z * heap)) : Prop :=
  exists rc h' f' lk', r = Ok (rc, h') /\ gentle base h h' /\ vstate base h' v f' lk' /\ (rc = 0%Z \/ rc = (-1)%Z) /\
    (plenty h -> (exists a p, In a attrs0 /\ k = attr_name a /\ value_ok a x p /\ rc = 0%Z /\ f' = put_f f a p /\ List.length lk' = (over f a p + List.length lk)%nat) \/
                 ((forall a p, In a attrs0 -> k = attr_name a -> ~ value_ok a x p) /\ rc = (-1)%Z /\ f' = f /\ List.length lk' = List.length lk)).

Lemma keyvalue_step : forall l base h v f lk k rk x rx, vstate base h v f lk -> (forall a, In a l -> In a all_attrs) -> NoDup l -> cstr_ok k -> cstr_ok x ->
  pair_outcome base h v f lk l k x (h_set_keyvalue l h v (k ++ rk) (blen k) (x ++ rx) (blen x)).
Proof.
  induction l as [|a l IH]; intros base h v f lk k rk x rx Hs Hall Hnd Hk Hx; cbn [h_set_keyvalue].
  - exists (-1)%Z, h, f, lk. split; [reflexivity|]. split; [apply gentle_refl|]. split; [exact Hs|]. split; [auto|]. intros _. right. split; [intros a p []|auto].
  - rewrite check_size_spec by assumption. cbn [obind]. inversion Hnd as [|? ? Hni Hnd']; subst. destruct (beqb (attr_name a) k) eqn:E.
    + apply beqb_eq in E. subst k. destruct (text_step base h v f lk a x rx Hs) as (rc & h' & f' & lk' & Er & G & Hs' & Hrc & Pl); [apply Hall; left; reflexivity|exact Hx|].
      rewrite Er. cbn [obind fst snd]. exists rc, h', f', lk'. split; [destruct Hrc as [->| ->]; reflexivity|]. split; [exact G|]. split; [exact Hs'|]. split; [exact Hrc|].
      intros P0. destruct (Pl P0) as [[p [H1 [H2 [H3 H4]]]]|[H1 H2]].
      * left. exists a, p. split; [left; reflexivity|]. auto.
      * right. split; [|exact H2]. intros b p Hb Hn. assert (b = a) by (apply attr_name_inj; auto; apply Hall; left; reflexivity). subst. apply H1.
    + apply beqb_neq in E. destruct (IH base h v f lk k rk x rx Hs) as (rc & h' & f' & lk' & Er & G & Hs' & Hrc & Pl); [intros b Hb; apply Hall; right; exact Hb|exact Hnd'|exact Hk|exact Hx|].
      exists rc, h', f', lk'. split; [exact Er|]. split; [exact G|]. split; [exact Hs'|]. split; [exact Hrc|]. intros P0. destruct (Pl P0) as [[b [p [H1 H2]]]|[H1 H2]].
      * left. exists b, p. split; [right; exact H1|exact H2].
      * right. split; [|exact H2]. intros b p [<-|Hb] Hn; [congruence|eauto].
Qed.

(** *** Agreement with the value model *)
Definition agrees (f : attrs) (w : voucher) : Prop :=
  f ASerial = v_serial w /\ forall a i, arr_field a = Some i -> get_attr_array (Some w) a = Some (match f a with Some d => ba_of d | None => ba_null end).

Lemma agrees_put : forall f w a x p, agrees f w -> In a all_attrs -> value_ok a x p -> agrees (put_f f a p) (put_value w a p).
Proof.
  intros f w a x p [A1 A2] Ha Hv. unfold value_ok in Hv.
  destruct a; cbn [kind] in Hv; try contradiction;
    try (destruct Hv as [t [_ ->]]); try (destruct Hv as [[_ ->]|[[_ ->]|[_ ->]]]); try (destruct Hv as [_ ->]); try (destruct Hv as [[_ ->]|[_ ->]]);
    cbn [put_f put_value]; (split; [exact A1 || reflexivity|]);
    intros b i Hi; specialize (A2 b i Hi); destruct b; try discriminate; cbn in *; try exact A2; reflexivity.
Qed.

(** Every value held came from an earlier key of the object at [idx]. *)
Definition seen (J : bytes) (toks : list token) (idx : nat) (f : attrs) (j : nat) : Prop :=
  forall a, owning a -> f a <> None -> exists i k, (i < j)%nat /\ nth_error toks (idx + i * 2 + 1) = Some k /\ tok_at J k (attr_name a).
(** The keys of the object at [idx] that name an owning attribute are different. *)
Definition keys_differ (J : bytes) (toks : list token) (idx : nat) : Prop :=
  forall a i j k k', owning a -> (i < j)%nat -> nth_error toks (idx + i * 2 + 1) = Some k -> nth_error toks (idx + j * 2 + 1) = Some k' ->
    tok_at J k (attr_name a) -> tok_at J k' (attr_name a) -> False.

Definition unrepeated (J : bytes) : Prop := single J.

Lemma owning_all : forall a, owning a -> In a all_attrs.
Proof. intros a [H|H]; [|subst; cbn; tauto]. destruct a; try discriminate; cbn; tauto. Qed.

Lemma pairs_nth : forall J ms toks j k, pairs_at J ms toks -> nth_error toks (j * 2) = Some k -> exists m, nth_error ms j = Some m /\ tok_at J k (m_key m).
Proof.
  intros J ms. induction ms as [|m ms IH]; intros toks j k H Hk; cbn [pairs_at] in H.
  - destruct toks; [|contradiction]. destruct (j * 2)%nat; discriminate.
  - destruct toks as [|t [|u toks]]; try contradiction. destruct H as (H1 & _ & H3). destruct j as [|j].
    + cbn in Hk. injection Hk as <-. exists m. auto.
    + change (S j * 2)%nat with (S (S (j * 2))) in Hk. cbn [nth_error] in Hk. exact (IH toks j k H3 Hk).
Qed.
Lemma app_inj_len : forall (a b c d : bytes), a ++ b = c ++ d -> List.length a = List.length c -> a = c /\ b = d.
Proof.
  induction a as [|x a IH]; intros b c d E L; destruct c as [|y c]; try discriminate; [auto|]. cbn [app] in E. injection E as -> E. cbn [List.length] in L. destruct (IH b c d E) as [-> ->]; [lia|auto].
Qed.
Lemma tok_same : forall J t x y, tok_at J t x -> tok_at J t y -> x = y.
Proof.
  intros J t x y (A & B & E & S1 & E1) (A' & B' & E' & S2 & E2). assert (LA : List.length A = List.length A') by (unfold blen in *; lia). assert (LX : List.length x = List.length y) by (unfold blen in *; lia).
  rewrite E in E'. destruct (app_inj_len _ _ _ _ E' LA) as [_ Q]. apply (app_inj_len _ _ _ _ Q LX).
Qed.

Lemma single_keys : forall J toks q idx o, jsmn_parse J 32 = inl toks -> place J q toks -> unrepeated J -> nth_error toks (S idx) = Some o -> tk_type o = TObject -> (1 <= idx)%nat -> keys_differ J toks (S idx).
Proof.
  intros J toks q idx o EP [Hord [Hbr _]] [Hu|(w & key & ms & Hw & Hk & Hm & EJ & ND)] Ho To Hi a i j k k' Ow Hlt N1 N2 T1 T2.
  - destruct (ordered_nth _ _ _ _ _ Hord (ltac:(lia) : (S idx + i * 2 + 1 < S idx + j * 2 + 1)%nat) N1 N2) as [Hc|Hb].
    + destruct (attr_name_head a (owning_all a Ow)) as [c [r [E1 [M1 M2]]]]. rewrite E1 in T1. rewrite Forall_forall in Hbr. specialize (Hbr k (nth_error_In _ _ N1) Hc). destruct (not_brace _ _ _ _ T1 Hbr); congruence.
    + destruct (tok_order _ _ _ _ _ T1 T2 Hb) as [A [M [B EJ]]]. apply (Hu a Ow). exists A, M, B. exact EJ.
  - subst J. destruct (Nat.le_gt_cases (List.length ms) 14) as [Le|Gt]; [|rewrite too_many_tokens in EP by assumption; discriminate].
    destruct (document_tokens w key ms Hw Hk Hm) as (o0 & k0 & o2 & tl & Ep & _ & _ & Tk & _ & _ & _ & Pa & Lf); [lia|]. rewrite Ep in EP. injection EP as <-.
    assert (idx = 1)%nat as ->.
    { destruct idx as [|[|idx]]; [lia|reflexivity|]. exfalso. cbn [nth_error] in Ho. rewrite Forall_forall in Lf. destruct (Lf o (nth_error_In _ _ Ho)) as [_ Q]. unfold is_container in Q. rewrite To in Q. discriminate. }
    change (2 + i * 2 + 1)%nat with (S (S (i * 2 + 1))) in N1. change (2 + j * 2 + 1)%nat with (S (S (j * 2 + 1))) in N2. rewrite Nat.add_1_r in N1, N2. cbn [nth_error] in N1, N2.
    destruct (pairs_nth _ _ _ _ _ Pa N1) as (m1 & M1 & K1). destruct (pairs_nth _ _ _ _ _ Pa N2) as (m2 & M2 & K2).
    pose proof (tok_same _ _ _ _ T1 K1) as Q1. pose proof (tok_same _ _ _ _ T2 K2) as Q2.
    assert (X : nth_error (map m_key ms) i = nth_error (map m_key ms) j) by (rewrite (map_nth_error m_key _ _ M1), (map_nth_error m_key _ _ M2); congruence).
    rewrite NoDup_nth_error in ND. assert (i = j); [apply ND; [|exact X]|lia]. rewrite map_length. apply nth_error_Some. congruence.
Qed.

Lemma not_again : forall J toks idx f j k a, keys_differ J toks idx -> seen J toks idx f j -> owning a -> nth_error toks (idx + j * 2 + 1) = Some k -> tok_at J k (attr_name a) -> f a = None.
Proof.
  intros J toks idx f j k a Hu Hs Ho Hk Ht. destruct (f a) as [d|] eqn:E; [|reflexivity]. exfalso.
  destruct (Hs a Ho) as (i & k' & Hlt & Hk' & Ht'); [congruence|]. exact (Hu a i j k' k Ho Hlt Hk' Hk Ht' Ht).
Qed.

Lemma put_f_owning : forall f a x p, In a all_attrs -> value_ok a x p -> (over f a p = 0%nat /\ put_f f a p = f) \/ (owning a /\ over f a p = held (f a)).
Proof.
  intros f a x p Ha Hv. unfold value_ok in Hv.
  destruct a; cbn [kind] in Hv; try contradiction;
    try (destruct Hv as [t [_ ->]]); try (destruct Hv as [[_ ->]|[[_ ->]|[_ ->]]]); try (destruct Hv as [_ ->]); try (destruct Hv as [[_ ->]|[_ ->]]);
    try (left; split; reflexivity); right; split; try reflexivity; first [left; reflexivity|right; reflexivity].
Qed.

Lemma seen_put : forall J toks idx f j k a x p, seen J toks idx f j -> In a all_attrs -> value_ok a x p -> nth_error toks (idx + j * 2 + 1) = Some k -> tok_at J k (attr_name a) -> seen J toks idx (put_f f a p) (S j).
Proof.
  intros J toks idx f j k a x p Hs Ha Hv Hk Ht b Hb Hn.
  destruct (attr_dec a b) as [<-|Hab]; [exists j, k; auto|].
  assert (E : put_f f a p b = f b) by (destruct p; cbn [put_f]; try reflexivity; unfold upd; destruct (attr_dec a b); congruence).
  rewrite E in Hn. destruct (Hs b Hb Hn) as (i' & k' & H1 & H2). exists i', k'. split; [lia|exact H2].
Qed.

Lemma h_read_pairs_step : forall J toks idx, toks_ok J toks -> blen J < 2147483648 ->
  forall n j base h v f lk, vstate base h v f lk ->
  exists ok h' f' lk', h_read_pairs J toks idx n j h v = Ok (ok, h') /\ gentle base h h' /\ vstate base h' v f' lk' /\
    (plenty h -> (forall w, agrees f w -> exists w', read_pairs J toks idx n j (Some w) = Ok (ok, Some w') /\ agrees f' w') /\
       (keys_differ J toks idx -> seen J toks idx f j -> List.length lk' = List.length lk)).
Proof.
  intros J toks idx Ht HJ. induction n as [|n IH]; intros j base h v f lk Hs; cbn [h_read_pairs read_pairs].
  - exists true, h, f, lk. split; [reflexivity|]. split; [apply gentle_refl|]. split; [exact Hs|]. intros _. split; [|reflexivity]. intros w Hw. exists w. auto.
  - destruct (nth_error toks (idx + j * 2 + 1)) as [k|] eqn:Ek.
    2:{ exists false, h, f, lk. split; [reflexivity|]. split; [apply gentle_refl|]. split; [exact Hs|]. intros _. split; [|reflexivity]. intros w Hw. exists w. auto. }
    destruct (nth_error toks (idx + (j * 2 + 1) + 1)) as [x|] eqn:Ex.
    2:{ exists false, h, f, lk. split; [reflexivity|]. split; [apply gentle_refl|]. split; [exact Hs|]. intros _. split; [|reflexivity]. intros w Hw. exists w. auto. }
    destruct (nth_toks_ok _ _ _ _ Ht Ek) as [kt [kB [K1 [K2 [K3 K4]]]]]. destruct (nth_toks_ok _ _ _ _ Ht Ex) as [xt [xB [X1 [X2 [X3 X4]]]]].
    rewrite K3, X3. cbn [obind]. rewrite (K4 HJ), (X4 HJ).
    destruct (keyvalue_step all_attrs base h v f lk kt kB xt xB Hs) as (rc & h1 & f1 & lk1 & Er & G1 & Hs1 & Hrc & Pl); [auto|apply all_attrs_nodup|exact K2|exact X2|].
    rewrite Er. cbn [obind fst snd]. destruct Hrc as [->| ->]; cbn [Z.ltb Z.compare].
    + destruct (IH (S j) base h1 v f1 lk1 Hs1) as (ok & h2 & f2 & lk2 & Er2 & G2 & Hs2 & Pl2). exists ok, h2, f2, lk2. split; [exact Er2|]. split; [eapply gentle_trans; eassumption|]. split; [exact Hs2|].
      intros P0. assert (P1 : plenty h1) by (intros y; rewrite (proj1 (proj2 G1)); apply P0). destruct (Pl2 P1) as [Q1 Q2].
      destruct (Pl P0) as [(a & p & Ha & Hka & Hv & _ & Hf & Hl)|(_ & X & _)]; [|discriminate]. subst kt f1. split.
      * intros w Hw. destruct (set_keyvalue_spec all_attrs w (attr_name a) kB xt xB) as [[a' [p' [Ha' [Hk' [Hv' Hs']]]]]|[Hno _]]; [auto|apply all_attrs_nodup|exact K2|exact X2| |exfalso; exact (Hno a p Ha eq_refl Hv)].
        assert (a = a') by (apply attr_name_inj; assumption). subst a'. assert (p = p') by (eapply value_ok_fun; eassumption). subst p'.
        rewrite Hs'. cbn [obind fst snd Z.ltb Z.compare]. apply Q1. eapply agrees_put; eassumption.
      * intros Hu Hse. rewrite Q2; [|exact Hu|eapply seen_put; [exact Hse|exact Ha|exact Hv|exact Ek|exact K1]]. rewrite Hl.
        destruct (put_f_owning f a xt p Ha Hv) as [[-> _]|[Ho ->]]; [reflexivity|]. rewrite (not_again _ _ _ _ _ _ _ Hu Hse Ho Ek K1). reflexivity.
    + exists false, h1, f1, lk1. split; [reflexivity|]. split; [exact G1|]. split; [exact Hs1|]. intros P0. destruct (Pl P0) as [(a & p & _ & _ & _ & X & _)|(Hno & _ & -> & Hl)]; [discriminate|]. split; [|auto].
      intros w Hw. destruct (set_keyvalue_spec all_attrs w kt kB xt xB) as [[a' [p' [Ha' [Hk' [Hv' Hs']]]]]|[_ Hs']]; [auto|apply all_attrs_nodup|exact K2|exact X2|exfalso; exact (Hno a' p' Ha' Hk' Hv')|].
      rewrite Hs'. cbn [obind fst snd Z.ltb Z.compare]. exists w. auto.
Qed.

Lemma seen_unset : forall J toks idx j, seen J toks idx unset j.
Proof. intros J toks idx j a _ H. exfalso. apply H. reflexivity. Qed.
Lemma agrees_unset : agrees unset init_voucher.
Proof. split; [reflexivity|]. intros a i Hi. destruct a; try discriminate; reflexivity. Qed.

Lemma h_find_root_step : forall J toks q, toks_ok J toks -> blen J < 2147483648 -> jsmn_parse J 32 = inl toks -> place J q toks ->
  forall rest idx base h v lk, (1 <= idx)%nat -> (forall t, In t rest -> In t toks) -> vstate base h v unset lk ->
  exists ok h' f' lk', h_find_root J toks rest idx h v = Ok (ok, h') /\ gentle base h h' /\ vstate base h' v f' lk' /\
    (plenty h -> (exists w', find_root J toks rest idx (Some init_voucher) = Ok (ok, Some w') /\ agrees f' w') /\
       (unrepeated J -> List.length lk' = List.length lk)).
Proof.
  intros J toks q Ht HJ EP Hpl. induction rest as [|t rest IH]; intros idx base h v lk Le Hin Hs; cbn [h_find_root find_root].
  - exists false, h, unset, lk. split; [reflexivity|]. split; [apply gentle_refl|]. split; [exact Hs|]. intros _. split; [|reflexivity]. exists init_voucher. split; [reflexivity|apply agrees_unset].
  - assert (Hi : In t toks) by (apply Hin; left; reflexivity). apply In_nth_error in Hi. destruct Hi as [i Hi].
    destruct (nth_toks_ok _ _ _ _ Ht Hi) as [x [B [X1 [X2 [X3 X4]]]]]. rewrite X3. cbn [obind]. rewrite (X4 HJ), root_prefix by assumption. cbn [obind].
    assert (Hno : exists ok h' f' lk', Ok (false, h) = Ok (ok, h') /\ gentle base h h' /\ vstate base h' v f' lk' /\
      (plenty h -> (exists w', Ok (false, Some init_voucher) = Ok (ok, Some w') /\ agrees f' w') /\ (unrepeated J -> List.length lk' = List.length lk))).
    { exists false, h, unset, lk. split; [reflexivity|]. split; [apply gentle_refl|]. split; [exact Hs|]. intros _. split; [|reflexivity]. exists init_voucher. split; [reflexivity|apply agrees_unset]. }
    destruct (beqb x (firstn (List.length x) root_name)).
    + destruct (nth_error toks (S idx)) as [o|] eqn:Eo; [|exact Hno]. destruct (tk_type o) eqn:To; try exact Hno.
      destruct (h_read_pairs_step J toks (S idx) Ht HJ (Z.to_nat (tk_size o)) 0%nat base h v unset lk Hs) as (ok & h' & f' & lk' & E & G & Hs' & Pl).
      exists ok, h', f', lk'. split; [exact E|]. split; [exact G|]. split; [exact Hs'|]. intros P0. destruct (Pl P0) as [Q1 Q2]. split; [apply Q1; apply agrees_unset|]. intros Hu. apply Q2; [eapply single_keys; eassumption|apply seen_unset].
    + apply IH; [lia| |exact Hs]. intros u Hu. apply Hin. right. exact Hu.
Qed.

(** *** Reading a voucher *)
Lemma deserialize_life : forall js h0, bytes_ok js -> blen js < 2147483648 -> heap_wf h0 -> hp_oom h0 (hp_next h0) = false ->
  exists v h, h_deserialize_voucher h0 js = Ok (v, h) /\ gentle (hp_next h0) h0 h /\
    ((v = 0 /\ (plenty h0 -> deserialize_voucher true (Some js) = Ok None /\ (unrepeated js -> no_leak (hp_next h0) h))) \/
     (v <> 0 /\ exists f lk, vstate (hp_next h0) h v f lk /\
        (plenty h0 -> (exists w, deserialize_voucher true (Some js) = Ok (Some w) /\ agrees f w) /\ (unrepeated js -> lk = [])))).
Proof.
  intros js h0 Hb HJ W Oom. unfold h_deserialize_voucher, deserialize_voucher.
  assert (Hnil : forall (r : outcome (option voucher)), r = Ok None -> exists v h, Ok (0, h0) = Ok (v, h) /\ gentle (hp_next h0) h0 h /\
    ((v = 0 /\ (plenty h0 -> r = Ok None /\ (unrepeated js -> no_leak (hp_next h0) h))) \/
     (v <> 0 /\ exists f lk, vstate (hp_next h0) h v f lk /\ (plenty h0 -> (exists w, r = Ok (Some w) /\ agrees f w) /\ (unrepeated js -> lk = []))))).
  { intros r ->. exists 0, h0. split; [reflexivity|]. split; [apply gentle_refl|]. left. split; [reflexivity|]. intros _. split; [reflexivity|]. intros _ a Ha [b Hl]. destruct (wf_live _ _ _ W Hl). lia. }
  destruct (jsmn_parse js 32) as [toks|] eqn:E; [|apply Hnil; reflexivity].
  pose proof (tokens_text _ _ _ Hb E) as Ht. destruct (parse_place _ _ _ E) as [q Hpl].
  destruct toks as [|t0 rest]; [apply Hnil; reflexivity|]. destruct (tk_type t0); try (apply Hnil; reflexivity).
  destruct (h_init_voucher h0) as [v h1] eqn:Ei. assert (V0 : v <> 0). { unfold h_init_voucher, alloc in Ei. rewrite Oom in Ei. injection Ei as <- _. destruct W. lia. }
  destruct (init_state _ _ _ W Ei V0) as [Hs G1].
  destruct (h_find_root_step js (t0 :: rest) q Ht HJ E Hpl rest 1%nat (hp_next h0) h1 v []) as (ok & h2 & f & lk & Er & G2 & Hs2 & Pl); [lia|intros t Hin; right; exact Hin|exact Hs|].
  rewrite Er. cbn [obind fst snd].
  assert (P1 : plenty h0 -> plenty h1) by (intros P0 y; rewrite (proj1 (proj2 G1)); apply P0).
  destruct ok.
  - exists v, h2. split; [reflexivity|]. split; [eapply gentle_trans; eassumption|]. right. split; [exact V0|]. exists f, lk. split; [exact Hs2|]. intros P0. destruct (Pl (P1 P0)) as [[w [Ew Ha]] Hu]. split.
    + exists w. rewrite Ew. cbn [obind fst snd]. auto.
    + intros Hn. specialize (Hu Hn). destruct lk; [reflexivity|discriminate].
  - destruct (free_step _ _ _ _ _ Hs2) as (h3 & E3 & G3 & D & B & L). rewrite E3. cbn [obind]. exists 0, h3. split; [reflexivity|]. split; [eapply gentle_trans; [exact G1|]; eapply gentle_trans; eassumption|]. left. split; [reflexivity|].
    intros P0. destruct (Pl (P1 P0)) as [[w [Ew _]] Hu]. split; [rewrite Ew; reflexivity|]. intros Hn a Ha Hl. apply (L a Ha) in Hl. specialize (Hu Hn). destruct lk; [contradiction|discriminate].
Qed.

Lemma deserialize_heap_safe : forall js h0, bytes_ok js -> blen js < 2147483648 -> heap_wf h0 -> hp_oom h0 (hp_next h0) = false ->
  exists v h, h_deserialize_voucher h0 js = Ok (v, h) /\ kept (hp_next h0) h0 h /\
    exists h', h_free_voucher h v = Ok h' /\ kept (hp_next h0) h0 h'.
Proof.
  intros js h0 Hb HJ W Oom. destruct (deserialize_life js h0 Hb HJ W Oom) as (v & h & E & G & Cs). exists v, h. split; [exact E|]. split; [apply G|].
  destruct Cs as [[-> _]|[V0 (f & lk & Hs & _)]]; [exists h; split; [reflexivity|apply G]|]. destruct (free_step _ _ _ _ _ Hs) as (h3 & E3 & G3 & _). exists h3. split; [exact E3|]. apply (gentle_trans _ _ _ _ G G3).
Qed.

Lemma deserialize_no_leak : forall js h0, bytes_ok js -> blen js < 2147483648 -> heap_wf h0 -> plenty h0 ->
  single js ->
  exists v h h', h_deserialize_voucher h0 js = Ok (v, h) /\ h_free_voucher h v = Ok h' /\ kept (hp_next h0) h0 h' /\ no_leak (hp_next h0) h'.
Proof.
  intros js h0 Hb HJ W Pl Hu. destruct (deserialize_life js h0 Hb HJ W (Pl _)) as (v & h & E & G & Cs). exists v, h.
  destruct Cs as [[-> Q]|[V0 (f & lk & Hs & Q)]].
  - exists h. split; [exact E|]. split; [reflexivity|]. split; [apply G|]. apply (proj2 (Q Pl) Hu).
  - destruct (free_step _ _ _ _ _ Hs) as (h3 & E3 & G3 & D & B & L). exists h3. split; [exact E|]. split; [exact E3|]. split; [apply (gentle_trans _ _ _ _ G G3)|].
    destruct (Q Pl) as [_ X]. rewrite (X Hu) in L. intros a Ha Hl. apply (L a Ha) in Hl. exact Hl.
Qed.

Lemma deserialize_same : forall js h0, bytes_ok js -> blen js < 2147483648 -> heap_wf h0 -> plenty h0 ->
  exists v h, h_deserialize_voucher h0 js = Ok (v, h) /\
    match deserialize_voucher true (Some js) with
    | Ok (Some w) => v <> 0 /\ forall h', same_above (hp_next h0) h h' -> h_get_serial h' v = Ok (v_serial w) /\
        forall a i b, arr_field a = Some i -> get_attr_array (Some w) a = Some b -> h_get_array h' v i = Ok (ba_data b)
    | Ok None => v = 0
    | UB _ => False
    end.
Proof.
  intros js h0 Hb HJ W Pl. destruct (deserialize_life js h0 Hb HJ W (Pl _)) as (v & h & E & G & Cs). exists v, h. split; [exact E|].
  destruct Cs as [[-> Q]|[V0 (f & lk & Hs & Q)]].
  - rewrite (proj1 (Q Pl)). reflexivity.
  - destruct (Q Pl) as [[w [Ew [A1 A2]]] _]. rewrite Ew. split; [exact V0|]. intros h' Sa. destruct (getters _ _ _ _ _ _ Hs Sa) as [B1 B2]. split; [rewrite B1, A1; reflexivity|].
    intros a i b Hi Hg. rewrite (B2 a i Hi). rewrite (A2 a i Hi) in Hg. injection Hg as <-. destruct (f a); reflexivity.
Qed.
