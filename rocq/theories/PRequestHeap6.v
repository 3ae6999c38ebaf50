(** Proofs about the memory of request.c: the MASA's voucher. *)
From Coq Require Import Permutation ZifyBool ZifyNat ZifyN.
From Verif Require Import Base PBase MBase64 MSerialize MOs MJsmn MVoucher SVoucher PVoucher SJson PVoucherText PVoucherRound MCrypto MRequest SRequest PRequest PRequest2 PRequest3
  MHeap MArray MVoucherHeap MConfig MHandlers MSerialHeap MRequestHeap SHeap SArray SVoucherHeap SSerialHeap PHeap PArray PBlocks POwn PHold
  PVoucherHeap PVoucherHeapJson PVoucherHeapOom PAcquire PSerialHeap PSerialHeap3 PSerialHeap4 SRequestHeap PRequestHeap PRequestHeap2 PRequestHeap3 PRequestHeap4.
Open Scope N_scope.

Lemma hold_local : forall base h L b s h', hold base h L -> local h b = (s, h') ->
  ext h h' /\ s = hp_next h /\ s <> 0 /\ hp_next h' = hp_next h + 1 /\ hp_cell h' s = Live b /\ (forall x, is_live h x -> hp_cell h' x = hp_cell h x) /\ hold base h' (s :: L).
Proof.
  intros base h L b s h' H E. pose proof (hold_wf _ _ _ H) as W. pose proof H as (_ & B & D & G & V). unfold local in E. assert (s = hp_next h) as -> by congruence.
  assert (Eh : h' = mk_heap (hp_next h + 1) (fun x => if x =? hp_next h then Live b else hp_cell h x) (hp_oom h)) by congruence. clear E. subst h'.
  assert (S0 : hp_next h <> 0) by (destruct W; lia).
  assert (K : forall x, is_live h x -> x < hp_next h) by (intros x Hx; apply (live_below _ _ W Hx)).
  assert (W' : heap_wf (mk_heap (hp_next h + 1) (fun x => if x =? hp_next h then Live b else hp_cell h x) (hp_oom h))).
  { destruct W as (W1 & W2 & W3). split; [cbn [hp_next]; lia|]. split; [cbn [hp_cell]; rewrite (proj2 (N.eqb_neq _ _)) by lia; exact W2|]. intros a Ha. cbn [hp_cell hp_next] in *. rewrite (proj2 (N.eqb_neq _ _)) by lia. apply W3. lia. }
  split; [split; [exact W'|]; split; [cbn [hp_next]; lia|]; split; [|reflexivity]; intros a Ha; cbn [hp_cell]; rewrite (proj2 (N.eqb_neq _ _)) by lia; reflexivity|].
  split; [reflexivity|]. split; [exact S0|]. split; [reflexivity|]. split; [cbn [hp_cell]; rewrite N.eqb_refl; reflexivity|].
  split; [intros x Hx; apply K in Hx; cbn [hp_cell]; rewrite (proj2 (N.eqb_neq _ _)) by lia; reflexivity|].
  split; [exact W'|]. split; [cbn [hp_next]; lia|]. split; [constructor; [|exact D]; intros X; destruct (hold_in _ _ _ _ H X) as (_ & _ & Y & _); lia|]. split.
  - intros a [<-|Ha]; [exact B|exact (G a Ha)].
  - intros a Ha. destruct (N.eq_dec a (hp_next h)) as [->|Ne].
    + split; [left; reflexivity|]. intros _. exists b. cbn [hp_cell]. rewrite N.eqb_refl. reflexivity.
    + unfold is_live. cbn [hp_cell]. rewrite (proj2 (N.eqb_neq _ _) Ne). change ((exists y, hp_cell h a = Live y) <-> In a (hp_next h :: L)). rewrite (V a Ha). cbn [In]. split; [auto|intros [X|X]; [congruence|exact X]].
Qed.

Lemma gentle_put : forall base h L a c, hold base h L -> In a L -> gentle base h (put h a c).
Proof.
  intros base h L a c H Ha. destruct (hold_in _ _ _ _ H Ha) as (_ & _ & _ & B). split; [intros x Hx; apply put_other; lia|]. split; [reflexivity|cbn; lia].
Qed.

(** A struct of an array on the stack is released with its content. *)
Lemma free_pin : forall base h pin c z L, hold base h (pin :: nz c ++ L) -> hp_cell h pin = Live (Struct [P c; I z]) ->
  exists h1 h2, h_free_binary_array_content h (pin, 0%nat) = Ok h1 /\ sys_free h1 pin = Ok h2 /\ gentle base h h2 /\ hp_next h2 = hp_next h /\ hold base h2 L /\
    (forall a, is_live h2 a -> hp_cell h2 a = hp_cell h a).
Proof.
  intros base h pin c z L H C. destruct (hold_in _ _ _ pin H (or_introl eq_refl)) as (_ & P0 & _). unfold h_free_binary_array_content. cbn [fst snd]. rewrite (proj2 (N.eqb_neq _ _) P0).
  rewrite (get_ptr_at h pin [P c; I z] 0%nat c P0 C eq_refl). cbn [obind]. unfold nz in H. destruct (c =? 0) eqn:E.
  - cbn [obind app] in *. erewrite set_field_at; [|exact P0|exact C|reflexivity]. pose proof (hold_put _ _ _ pin (Struct (set_nthv [P c; I z] (0 + 1) (I 0))) H (or_introl eq_refl)) as H1.
    destruct (hold_free _ _ _ _ H1) as [E2 H2]. eexists _, _. split; [reflexivity|]. split; [exact E2|]. split; [eapply gentle_trans; eapply gentle_put; [exact H|left; reflexivity|exact H1|left; reflexivity]|]. split; [reflexivity|]. split; [exact H2|].
    intros a [b Ha]. destruct (N.eq_dec a pin) as [->|Ne]; [rewrite put_same in Ha; discriminate Ha|]. rewrite !put_other by exact Ne. reflexivity.
  - cbn [app] in H. apply N.eqb_neq in E. assert (H' : hold base h (c :: pin :: L)) by (eapply hold_perm; [|exact H]; apply perm_swap).
    assert (Pc : pin <> c) by (destruct H as (_ & _ & D & _); apply NoDup_cons_iff in D; intros ->; apply (proj1 D); left; reflexivity).
    destruct (hold_free _ _ _ _ H') as [E1 H1]. rewrite E1. cbn [obind]. assert (C1 : hp_cell (put h c Freed) pin = Live (Struct [P c; I z])) by (rewrite put_other by exact Pc; exact C).
    erewrite set_field_at; [|exact P0|exact C1|reflexivity]. cbn [obind set_nthv]. pose proof (hold_put _ _ _ pin (Struct [P 0; I z]) H1 (or_introl eq_refl)) as H2.
    erewrite set_field_at; [|exact P0|apply put_same|reflexivity]. cbn [set_nthv Nat.add]. pose proof (hold_put _ _ _ pin (Struct [P 0; I 0]) H2 (or_introl eq_refl)) as H3.
    destruct (hold_free _ _ _ _ H3) as [E4 H4]. eexists _, _. split; [reflexivity|]. split; [exact E4|]. split.
    + eapply gentle_trans; [eapply (gentle_put _ _ _ c); [exact H'|left; reflexivity]|]. eapply gentle_trans; [eapply (gentle_put _ _ _ pin); [exact H1|left; reflexivity]|].
      eapply gentle_trans; [eapply (gentle_put _ _ _ pin); [exact H2|left; reflexivity]|]. eapply (gentle_put _ _ _ pin); [exact H3|left; reflexivity].
    + split; [reflexivity|]. split; [exact H4|]. intros a [b Ha]. destruct (N.eq_dec a pin) as [->|Ne]; [rewrite put_same in Ha; discriminate Ha|]. rewrite !(put_other _ pin) in * by exact Ne.
      destruct (N.eq_dec a c) as [->|Nc]; [rewrite put_same in Ha; discriminate Ha|]. rewrite put_other by exact Nc. reflexivity.
Qed.

(** The callback fills the struct. *)
Lemma call_ok : forall base h pin L cb serial regs rc b, hold base h (pin :: L) -> hp_cell h pin = Live (Struct [P 0; I 0]) -> cb serial regs = (rc, b) -> ba_bytes (Some b) ->
  exists rc' h', h_call_back cb h serial regs pin = Ok (rc', h') /\ gentle base h h' /\ (forall a, a <> pin -> is_live h a -> hp_cell h' a = hp_cell h a) /\
    (((rc' < 0)%Z /\ ((rc < 0)%Z \/ refused h h') /\ hold base h' (pin :: L)) \/
     ((0 <= rc')%Z /\ (0 <= rc)%Z /\ exists c, hp_cell h' pin = Live (Struct [P c; I (Z.of_N (ba_len b))]) /\ array_at h' (pin, 0%nat) (Some b) /\ hold base h' (pin :: nz c ++ L))).
Proof.
  intros base h pin L cb serial regs rc b H C E Hb. destruct (hold_in _ _ _ pin H (or_introl eq_refl)) as (_ & P0 & Pn & _). unfold h_call_back. rewrite E. destruct (rc <? 0)%Z eqn:Er.
  - exists rc, h. split; [reflexivity|]. split; [apply gentle_refl|]. split; [reflexivity|]. left. split; [lia|]. split; [left; lia|exact H].
  - cbn [ba_bytes] in Hb. destruct (ba_data b) as [d|] eqn:Ed.
    + destruct (hold_alloc _ _ _ (Buf d) H) as (c & h1 & Ea & X1 & Hn1 & Cs). rewrite Ea. pose proof (gentle_ext _ _ _ _ H X1) as G1. destruct Cs as [(-> & Oo & Cx & H1)|(-> & C0 & Oo & Cc & Cx & H1)].
      * cbn [N.eqb]. exists (-1)%Z, h1. split; [reflexivity|]. split; [exact G1|]. split; [intros a _ _; apply Cx|]. left. split; [lia|]. split; [right; apply refused_here; [exact Oo|lia]|exact H1].
      * rewrite (proj2 (N.eqb_neq _ _) C0). assert (Pc : pin <> hp_next h) by lia. assert (C1 : hp_cell h1 pin = Live (Struct [P 0; I 0])) by (rewrite Cx by exact Pc; exact C).
        assert (H1' : hold base h1 (pin :: hp_next h :: L)) by (eapply hold_perm; [|exact H1]; apply perm_swap).
        erewrite set_field_at; [|exact P0|exact C1|reflexivity]. cbn [obind set_nthv]. pose proof (hold_put _ _ _ pin (Struct [P (hp_next h); I 0]) H1' (or_introl eq_refl)) as H2.
        erewrite set_field_at; [|exact P0|apply put_same|reflexivity]. cbn [obind set_nthv]. pose proof (hold_put _ _ _ pin (Struct [P (hp_next h); I (Z.of_N (ba_len b))]) H2 (or_introl eq_refl)) as H3.
        eexists _, _. split; [reflexivity|]. split; [eapply gentle_trans; [exact G1|eapply gentle_trans; eapply (gentle_put _ _ _ pin); [exact H1'|left; reflexivity|exact H2|left; reflexivity]]|].
        split; [intros a Ne La; rewrite !put_other by exact Ne; apply Cx; pose proof (live_below _ _ (hold_wf _ _ _ H) La); lia|].
        right. split; [lia|]. split; [lia|]. exists (hp_next h). split; [apply put_same|]. split.
        -- cbn [array_at fst snd]. split; [exact P0|]. eexists _, _. split; [apply put_same|]. split; [reflexivity|]. split; [reflexivity|]. rewrite Ed. split; [exact C0|]. split; [|apply Hb]. rewrite !put_other by congruence. exact Cc.
        -- unfold nz. rewrite (proj2 (N.eqb_neq _ _) C0). exact H3.
    + erewrite set_field_at; [|exact P0|exact C|reflexivity]. cbn [obind set_nthv]. pose proof (hold_put _ _ _ pin (Struct [P 0; I (Z.of_N (ba_len b))]) H (or_introl eq_refl)) as H3.
      eexists _, _. split; [reflexivity|]. split; [eapply (gentle_put _ _ _ pin); [exact H|left; reflexivity]|]. split; [intros a Ne La; apply put_other; exact Ne|].
      right. split; [lia|]. split; [lia|]. exists 0. split; [apply put_same|]. split; [|exact H3]. cbn [array_at fst snd]. split; [exact P0|]. eexists _, _. split; [apply put_same|]. split; [reflexivity|]. split; [reflexivity|]. rewrite Ed. split; [reflexivity|exact Hb].
Qed.

(** A voucher that may be NULL. *)
Definition ovch (h : heap) (v : N) (F : list N) : Prop := (v = 0 /\ F = []) \/ exists f, vch h v f F.
Lemma ovch_frame : forall h h' v F, ovch h v F -> (forall a, In a F -> hp_cell h' a = hp_cell h a) -> ovch h' v F.
Proof. intros h h' v F [H|[f H]] K; [left; exact H|right]. exists f. eapply vch_frame; eassumption. Qed.
Lemma free_ovch : forall base h v F L, hold base h (F ++ L) -> ovch h v F ->
  exists h', h_free_voucher h v = Ok h' /\ gentle base h h' /\ hp_next h' = hp_next h /\ hold base h' L /\ (forall a, is_live h' a -> hp_cell h' a = hp_cell h a).
Proof.
  intros base h v F L H [[-> ->]|[f Hv]].
  - exists h. split; [reflexivity|]. split; [apply gentle_refl|]. split; [reflexivity|]. split; [exact H|reflexivity].
  - apply (free_hold base h v f L). apply vstate_vch. exists F. split; assumption.
Qed.
Lemma free_masa : forall base h l lst F vr Fr pvr Fp v Fv L, hold base h (F ++ Fr ++ Fp ++ Fv ++ L) -> listed h l lst F -> ovch h vr Fr -> ovch h pvr Fp -> ovch h v Fv ->
  exists h', (forall A (k : heap -> outcome A), obind (free_array_list h l) (fun h => obind (h_free_voucher h vr) (fun h => obind (h_free_voucher h pvr) (fun h => obind (h_free_voucher h v) k))) = k h') /\
    gentle base h h' /\ hp_next h' = hp_next h /\ hold base h' L /\ (forall a, is_live h' a -> hp_cell h' a = hp_cell h a).
Proof.
  intros base h l lst F vr Fr pvr Fp v Fv L H Hl Hr Hp Hv.
  destruct (free_listed _ _ _ _ _ _ H Hl) as (h1 & E1 & G1 & _ & N1 & K1 & H1).
  assert (Nf : forall a, In a (Fr ++ Fp ++ Fv ++ L) -> ~ In a F) by (intros a Ha Hf; destruct H as (_ & _ & D & _); eapply disjoint_of_NoDup; [exact D|exact Hf|exact Ha]).
  assert (In1 : forall a, In a (Fr ++ Fp ++ Fv ++ L) -> hp_cell h1 a = hp_cell h a) by (intros a Ha; apply K1, Nf; exact Ha).
  destruct (free_ovch base h1 vr Fr _ H1) as (h2 & E2 & G2 & N2 & H2 & K2); [eapply ovch_frame; [exact Hr|intros a Ha; apply In1; apply in_or_app; left; exact Ha]|].
  assert (In2 : forall a, In a (Fp ++ Fv ++ L) -> hp_cell h2 a = hp_cell h a) by (intros a Ha; rewrite K2 by (apply (hold_in _ _ _ a H2 Ha)); apply In1; apply in_or_app; right; exact Ha).
  destruct (free_ovch base h2 pvr Fp _ H2) as (h3 & E3 & G3 & N3 & H3 & K3); [eapply ovch_frame; [exact Hp|intros a Ha; apply In2; apply in_or_app; left; exact Ha]|].
  assert (In3 : forall a, In a (Fv ++ L) -> hp_cell h3 a = hp_cell h a) by (intros a Ha; rewrite K3 by (apply (hold_in _ _ _ a H3 Ha)); apply In2; apply in_or_app; right; exact Ha).
  destruct (free_ovch base h3 v Fv _ H3) as (h4 & E4 & G4 & N4 & H4 & K4); [eapply ovch_frame; [exact Hv|intros a Ha; apply In3; apply in_or_app; left; exact Ha]|].
  exists h4. split; [intros A k; rewrite E1; cbn [obind]; rewrite E2; cbn [obind]; rewrite E3; cbn [obind]; rewrite E4; reflexivity|].
  split; [eapply gentle_trans; [exact G1|eapply gentle_trans; [exact G2|eapply gentle_trans; eassumption]]|]. split; [congruence|]. split; [exact H4|].
  intros a La. assert (L3 : is_live h3 a) by (destruct La as [b Hb]; exists b; rewrite <- K4; [exact Hb|eexists; exact Hb]). rewrite K4 by exact La.
  assert (L2 : is_live h2 a) by (destruct L3 as [b Hb]; exists b; rewrite <- K3; [exact Hb|eexists; exact Hb]). rewrite K3 by exact L3.
  assert (L1 : is_live h1 a) by (destruct L2 as [b Hb]; exists b; rewrite <- K2; [exact Hb|eexists; exact Hb]). rewrite K2 by exact L2.
  destruct (in_dec N.eq_dec a F) as [Hf|Hf]; [|apply K1; exact Hf]. exfalso.
  destruct (hold_in _ _ _ a H (in_or_app _ _ _ (or_introl Hf))) as (_ & _ & _ & B).
  assert (X : In a (Fr ++ Fp ++ Fv ++ L)) by (destruct H1 as (_ & _ & _ & _ & V); apply (V a B); exact L1). exact (Nf a X Hf).
Qed.
