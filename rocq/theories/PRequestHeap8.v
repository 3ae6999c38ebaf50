(** Proofs about the memory of request.c: the MASA's voucher, both requests. *)
From Coq Require Import Permutation ZifyBool ZifyNat ZifyN.
From Verif Require Import Base PBase MBase64 MSerialize MOs MJsmn MVoucher SVoucher PVoucher SJson PVoucherText PVoucherRound MCrypto MRequest SRequest PRequest PRequest2 PRequest3 PRequest4
  MHeap MArray MVoucherHeap MConfig MHandlers MSerialHeap MRequestHeap SHeap SArray SVoucherHeap SSerialHeap PHeap PArray PBlocks POwn PHold
  PVoucherHeap PVoucherHeapJson PVoucherHeapOom PAcquire PSerialHeap PSerialHeap3 PSerialHeap4 SRequestHeap PRequestHeap PRequestHeap2 PRequestHeap3 PRequestHeap4 PRequestHeap6 PRequestHeap7.
Open Scope N_scope.

Lemma free_masa0 : forall h0 h l lst F vr Fr pvr Fp L t, hold (hp_next h0) h (F ++ Fr ++ Fp ++ L) -> listed h l lst F -> ovch h vr Fr -> ovch h pvr Fp -> gentle (hp_next h0) h0 h -> (t = Ok None \/ refused h0 h) ->
  ends_by L h0 (obind (free_array_list h l) (fun h => obind (h_free_voucher h vr) (fun h => obind (h_free_voucher h pvr) (fun h => obind (h_free_voucher h 0) (fun h => Ok (0, h)))))) t.
Proof.
  intros h0 h l lst F vr Fr pvr Fp L t H Hl Hr Hp G Q. destruct (free_masa (hp_next h0) h l lst F vr Fr pvr Fp 0 [] L H Hl Hr Hp (or_introl (conj eq_refl eq_refl))) as (h' & E & G' & _ & H' & _).
  rewrite E. eapply fail_by; [exact G|exact G'|exact H'|exact Q].
Qed.

Lemma masa_by : forall o h0 cms expires cb cert key rcerts rstore pcerts pstore extra x c k lr lrs lp lps l,
  ossl_sane o -> heap_wf h0 -> array_at h0 cms x -> array_at h0 (cert, 0%nat) c -> array_at h0 (key, 0%nat) k ->
  h_certlist h0 rcerts = Ok lr -> h_certlist h0 rstore = Ok lrs -> h_certlist h0 pcerts = Ok lp -> h_certlist h0 pstore = Ok lps -> h_certlist h0 extra = Ok l -> ba_bytes x ->
  (forall f s regs, cb = Some f -> ba_bytes (Some (snd (f s regs)))) ->
  (forall t f s n d xb vr regs rc pinned, expires = Some t -> cb = Some f -> x = Some xb -> says o xb lr lrs true vr regs -> get_attr_str (Some vr) ASerial = Some (Some s) ->
     f s regs = (rc, pinned) -> (0 <= rc)%Z -> ba_has (Some pinned) d -> nonce_is vr n -> text_fits (masa_content t s n d)) ->
  exists lk,
    (clean o x lr lrs -> (forall xb vr regs prior, x = Some xb -> says o xb lr lrs true vr regs -> get_attr_array (Some vr) APrior = Some prior -> clean o (Some prior) lp lps) ->
     ((forall xb cm st json, x = Some xb -> ~ verified o xb lr lrs cm st json) \/ (plenty h0 /\ exists xb vr regs, x = Some xb /\ says o xb lr lrs true vr regs)) -> lk = []) /\
    ends_by lk h0 (h_sign_masa_pledge_voucher o h0 cms expires cb cert key rcerts rstore pcerts pstore extra) (sign_masa_pledge_voucher o x expires cb c k lr lrs lp lps l).
Proof.
  intros o h0 cms expires cb cert key rcerts rstore pcerts pstore extra x c k lr lrs lp lps l So W Ax Ac Ak Alr Alrs Alp Alps Al Bx Bc Tf. unfold h_sign_masa_pledge_voucher, sign_masa_pledge_voucher.
  assert (None_ : forall Pq : Prop, exists lk : list N, (Pq -> lk = []) /\ ends_by lk h0 (Ok (0, h0)) (Ok None)).
  { intros Pq. exists []. split; [reflexivity|]. eapply fail_by; [apply gentle_refl|apply gentle_refl|apply hold_init; exact W|left; reflexivity]. }
  destruct expires as [t|]; [|destruct (None_ True) as (lk & H1 & H2); exists lk; split; [intros; auto|exact H2]]. destruct cb as [cb|]; [|destruct (None_ True) as (lk & H1 & H2); exists lk; split; [intros; auto|exact H2]]. clear None_.
  destruct (verify_safe o x lr lrs true So Bx) as [t1 Et]. rewrite Et. cbn [obind].
  pose proof (checks_ok o h0 cms rcerts rstore true x lr lrs t1 So W Ax Alr Alrs Et) as X. destruct (h_verify_cms_voucher o h0 cms rcerts rstore true) as [[[[vr vpl] l0] h1]|e]; cbn [obind checks] in *.
  2:{ exists []. split; [reflexivity|]. match goal with |- ends_by _ _ _ ?t => destruct t end; [exact X|exact Logic.I]. }
  destruct X as [E1 X]. pose proof (gentle_of_ext _ _ _ (N.le_refl _) E1) as G1. destruct X as [(-> & Q & L & H1 & HL)|(V0 & w & lst & fr & F & lk0 & -> & Li & Hs & Ag & Sp & HL & _)].
  { cbn [N.eqb]. exists L. split.
    - intros Y _ [Z|[PL (xb & v' & regs & -> & Sy)]]; [apply HL; [exact Y|right; exact Z]|]. exfalso. destruct Q as [->|Q]; [|apply (plenty_not_starved _ PL); eapply refused_starved; exact Q].
      apply verify_says in Sy. rewrite Sy in Et. discriminate Et.
    - eapply fail_by; [exact G1|apply gentle_refl|exact H1|]. destruct Q as [->|Q]; [left; reflexivity|right; exact Q]. }
  rewrite (proj2 (N.eqb_neq _ _) V0). pose proof Hs as Hs0. apply vstate_vch in Hs0. destruct Hs0 as (Fr & Hr & Hh). set (base := hp_next h0) in *.
  destruct x as [x|]; [|discriminate]. apply verify_says in Et. destruct (says_values _ _ _ _ _ _ _ So Et) as [Wa Wst]. pose proof (says_wf _ _ _ _ _ _ _ So Et) as Hwf.
  assert (Wsr : forall u, v_serial w = Some u -> cstr_ok u) by (intros u Hu; apply (Wst u); cbn [get_attr_str]; rewrite Hu; reflexivity).
  destruct (vch_serial _ _ _ _ _ Hr Ag Wsr) as (vs & Gp & Svs & _). rewrite Gp. cbn [obind get_attr_str is_attr_nonempty].
  assert (HhF : hold base h1 (F ++ Fr ++ [] ++ lk0)) by (eapply hold_perm; [|exact Hh]; cbn [app]; rewrite app_assoc; etransitivity; [apply Permutation_app_comm|]; reflexivity).
  pose proof (vch_o _ _ _ _ Hr) as Or.
  assert (Fail0 : ends_by lk0 h0 (obind (free_array_list h1 l0) (fun h => obind (h_free_voucher h vr) (fun h => obind (h_free_voucher h 0) (fun h => obind (h_free_voucher h 0) (fun h => Ok (0, h)))))) (Ok None)).
  { eapply (free_masa0 h0 h1 l0 lst F vr Fr 0 [] lk0); [exact HhF|exact Li|exact Or|left; auto|exact G1|left; reflexivity]. }
  assert (Fail0' : exists lk : list N, (clean o (Some x) lr lrs -> (forall xb v' regs prior, Some x = Some xb -> says o xb lr lrs true v' regs -> get_attr_array (Some v') APrior = Some prior -> clean o (Some prior) lp lps) ->
     ((forall xb cm st json, Some x = Some xb -> ~ verified o xb lr lrs cm st json) \/ (plenty h0 /\ exists xb v' regs, Some x = Some xb /\ says o xb lr lrs true v' regs)) -> lk = []) /\
     ends_by lk h0 (obind (free_array_list h1 l0) (fun h => obind (h_free_voucher h vr) (fun h => obind (h_free_voucher h 0) (fun h => obind (h_free_voucher h 0) (fun h => Ok (0, h)))))) (Ok None)).
  { exists lk0. split; [intros Y _ _; exact (HL Y)|exact Fail0]. }
  clear Fail0. destruct (v_serial w) as [s1|] eqn:Ews; cbn [negb]; [|cbn in Svs; subst vs; cbn [N.eqb]; exact Fail0']. rewrite (proj2 (N.eqb_neq _ _) (proj1 Svs)).
  assert (Hw : forall a, h_is_attr_nonempty h1 vr vpl a = Ok (is_attr_nonempty w a)) by (intros a; apply nonempty_same; exact (vstate_in_memory _ _ _ _ _ _ _ Hs Ag Sp)).
  pose proof (Hw ANonce) as En. pose proof (Hw APrior) as Ep. unfold h_is_attr_nonempty in En, Ep. cbn [arr_field] in En, Ep. rewrite En. cbn [obind]. rewrite Ep. cbn [obind]. clear Hw.
  cbn [get_attr_array]. change (is_attr_array_nonempty (Some (v_nonce w))) with (is_attr_nonempty w ANonce). change (is_attr_array_nonempty (Some (v_prior w))) with (is_attr_nonempty w APrior).
  assert (Nn : is_attr_nonempty w ANonce && match (if is_attr_nonempty w ANonce then Some (v_nonce w) else None) with None => true | Some _ => false end = false) by (destruct (is_attr_nonempty w ANonce); reflexivity).
  rewrite Nn. clear Nn. destruct (is_attr_nonempty w APrior) eqn:Epr; cbn [negb]; [|exact Fail0'].
  assert (Hpr : ba_bytes (Some (v_prior w))) by (apply arr_bytes; apply (Wa APrior); reflexivity).
  destruct (verify_safe o (Some (v_prior w)) lp lps false So Hpr) as [t2 Et2]. rewrite Et2. cbn [obind].
  pose proof (vstate_wf _ _ _ _ _ Hs) as W1. pose proof (vch_array _ _ _ _ _ APrior _ _ Hr Ag eq_refl eq_refl) as Apr.
  pose proof (checks_ok o h1 (vr, 7%nat) pcerts pstore false (Some (v_prior w)) lp lps t2 So W1 Apr (ext_certlist _ _ _ _ W E1 Alp) (ext_certlist _ _ _ _ W E1 Alps) Et2) as X2.
  destruct (h_verify_cms_voucher o h1 (vr, 7%nat) pcerts pstore false) as [[[[pvr ppl] l1] h2]|e]; cbn [obind checks] in *.
  2:{ exists []. split; [reflexivity|]. match goal with |- ends_by _ _ _ ?t => destruct t end; [|exact Logic.I]. destruct X2 as [-> Y]. split; [reflexivity|]. eapply starved_before; [| |exact Y]; apply G1. }
  destruct X2 as [E2 X2]. assert (B1 : base <= hp_next h1) by apply G1. pose proof (gentle_of_ext _ _ _ B1 E2) as G12. pose proof (gentle_trans _ _ _ _ G1 G12) as G2.
  assert (K2 : forall a, In a (Fr ++ lk0 ++ F) -> hp_cell h2 a = hp_cell h1 a) by (intros a Ha; destruct E2 as (_ & _ & K & _); apply K; apply (hold_in _ _ _ a Hh Ha)).
  assert (Li2 : listed h2 l0 lst F) by (eapply listed_frame; [exact Li|intros a Ha; apply K2; rewrite !in_app_iff; auto]).
  assert (Hr2 : vch h2 vr fr Fr) by (eapply vch_frame; [exact Hr|intros a Ha; apply K2; rewrite !in_app_iff; auto]).
  destruct X2 as [(-> & Q & L1 & H2 & HL1)|(V1 & w2 & lst2 & fp & F2 & lk1 & -> & _ & Hs2 & Ag2 & Sp2 & HL1 & HF2)].
  { cbn [N.eqb]. exists (lk0 ++ L1). split.
    - intros Y Z _. rewrite (HL Y), HL1; [reflexivity|exact (Z x w lst (v_prior w) eq_refl Et eq_refl)|left; reflexivity].
    - eapply (free_masa0 h0 h2 l0 lst F vr Fr 0 [] (lk0 ++ L1)); [|exact Li2|exact (vch_o _ _ _ _ Hr2)|left; auto|exact G2|].
      + pose proof (hold_grow _ _ _ _ _ HhF E2 H2) as Y. eapply hold_perm; [|exact Y]. cbn [app]. etransitivity; [apply Permutation_app_comm|]. rewrite <- !app_assoc. reflexivity.
      + destruct Q as [->|Q]; [left; reflexivity|right; eapply refused_gentle; [exact G1|exact Q]]. }
  rewrite (proj2 (N.eqb_neq _ _) V1). rewrite (HF2 eq_refl), app_nil_r in Hs2. clear HF2 F2. set (lk := lk0 ++ lk1).
  exists lk. split. { intros Y Z _. unfold lk. rewrite (HL Y), HL1; [reflexivity|exact (Z x w lst (v_prior w) eq_refl Et eq_refl)]. }
  clear HL HL1 Fail0'. apply vstate_vch in Hs2. destruct Hs2 as (Fp & Hp2 & Hh2). apply verify_says in Et2. destruct (says_values _ _ _ _ _ _ _ So Et2) as [Wa2 Wst2].
  assert (Wsr2 : forall u, v_serial w2 = Some u -> cstr_ok u) by (intros u Hu; apply (Wst2 u); cbn [get_attr_str]; rewrite Hu; reflexivity).
  destruct (vch_serial _ _ _ _ _ Hp2 Ag2 Wsr2) as (ps & Gps & Sps & Ips). rewrite Gps. cbn [obind].
  assert (HhR : hold base h2 (F ++ Fr ++ Fp ++ lk)).
  { pose proof (hold_grow _ _ _ _ _ HhF E2 Hh2) as Y. eapply hold_perm; [|exact Y]. unfold lk. cbn [app]. etransitivity; [apply Permutation_app_comm|]. rewrite <- !app_assoc. do 2 apply Permutation_app_head. apply Permutation_app_swap_app. }
  assert (FailP : ends_by lk h0 (obind (free_array_list h2 l0) (fun h => obind (h_free_voucher h vr) (fun h => obind (h_free_voucher h pvr) (fun h => obind (h_free_voucher h 0) (fun h => Ok (0, h)))))) (Ok None)).
  { eapply (free_masa0 h0 h2 l0 lst F vr Fr pvr Fp lk); [exact HhR|exact Li2|exact (vch_o _ _ _ _ Hr2)|exact (vch_o _ _ _ _ Hp2)|exact G2|left; reflexivity]. }
  destruct (v_serial w2) as [s2|] eqn:Ew2; cbn [negb]; [|cbn in Sps; subst ps; cbn [N.eqb]; exact FailP]. rewrite (proj2 (N.eqb_neq _ _) (proj1 Sps)). specialize (Ips (proj1 Sps)).
  assert (Svs2 : string_at h2 vs (Some s1)) by (eapply string_at_kept; [exact W1|reflexivity|apply E2|exact Svs]).
  cbn [strcmp_eq obind]. unfold h_strcmp_eq. rewrite (string_at_read _ _ _ Svs2). cbn [obind]. rewrite (string_at_read _ _ _ Sps). cbn [obind].
  destruct (beqb s1 s2) eqn:Ebs; cbn [negb]; [|exact FailP]. apply beqb_eq in Ebs. subst s2. clear FailP.
  set (sc := mk_scene l0 lst F vr fr Fr pvr fp Fp ps s1).
  assert (A2 : around sc h2) by (split; [exact Li2|]; split; [exact Hr2|]; split; [exact Hp2|]; split; [exact Sps|exact Ips]).
  assert (W2 : heap_wf h2) by (eapply hold_wf; exact Hh2). destruct (h_init_voucher h2) as [v h3] eqn:Ei. pose proof Ei as Ei'. unfold h_init_voucher in Ei'.
  destruct (hold_alloc _ _ _ v_node (hold_init _ W2)) as (v' & h3' & Ea & X3 & Hn3 & Cs). rewrite Ei' in Ea. assert (v' = v /\ h3' = h3) as [-> ->] by (split; congruence). clear Ea.
  assert (B2 : base <= hp_next h2) by apply G2. pose proof (gentle_of_ext _ _ _ B2 X3) as G23. pose proof (gentle_trans _ _ _ _ G2 G23) as G3.
  assert (K3 : forall a, In a (rest_of sc lk) -> hp_cell h3 a = hp_cell h2 a) by (intros a Ha; destruct X3 as (_ & _ & K & _); apply K; apply (hold_in _ _ _ a HhR Ha)).
  pose proof (around_frame sc lk _ _ A2 K3) as A3.
  destruct Cs as [(-> & Oom & Cx & _)|(Hv & Vn & Oom & _)].
  { cbn [N.eqb]. destruct A3 as (B3 & B4 & B5 & _). eapply (free_masa0 h0 h3 l0 lst F vr Fr pvr Fp lk); [|exact B3|exact (vch_o _ _ _ _ B4)|exact (vch_o _ _ _ _ B5)|exact G3|].
    - eapply hold_same; [exact HhR|apply X3|apply G3|intros a _; apply Cx].
    - right. eapply refused_gentle; [exact G2|]. apply refused_here; [exact Oom|lia]. }
  rewrite (proj2 (N.eqb_neq _ _) Vn). destruct (init_state _ _ _ W2 Ei Vn) as [Hv0 _].
  assert (Hv3 : vstate base h3 v unset (rest_of sc lk)).
  { apply vstate_vch in Hv0. destruct Hv0 as (Fv & Hvv & Hvh). apply vstate_vch. exists Fv. split; [exact Hvv|]. rewrite app_nil_r in Hvh. exact (hold_grow _ _ _ _ _ HhR X3 Hvh). }
  clear Hv0. destruct (cb s1 lst) as [rc pinned] eqn:Ecb.
  assert (Bp : ba_bytes (Some pinned)) by (specialize (Bc cb s1 lst eq_refl); rewrite Ecb in Bc; exact Bc).
  assert (Fits : forall n d, nonce_is w n -> (0 <= rc)%Z -> ba_has (Some pinned) d -> blen s1 < 128 -> fits (masa_voucher n d s1 t)).
  { intros n d Hn Rp Hd Hl. assert (Ser : get_attr_str (Some w) ASerial = Some (Some s1)) by (cbn [get_attr_str]; rewrite Ews; reflexivity).
    assert (Hnb : forall y, n = Some y -> bytes_ok y) by (intros y ->; destruct (Wa _ _ Hn) as [Y|(d2 & Y & Bd)]; [discriminate Y|assert (y = d2) as -> by (unfold ba_of in Y; congruence); exact Bd]). split; [|split].
    - intros y Hy. assert (y = s1) as -> by (destruct n; cbn in Hy; congruence). unfold SIZE_MAX. lia.
    - intros a b y Hb Hy. destruct a; cbn [get_attr_array] in Hb; try discriminate Hb; assert (Eb : b = _) by (symmetry; injection Hb as Hb; exact Hb); rewrite Eb in Hy; clear Hb Eb.
      + destruct n; cbn in Hy; discriminate Hy.
      + assert (y = d) as -> by (destruct n; cbn in Hy; congruence). eapply ba_has_bytes; [exact Bp|exact Hd].
      + destruct n as [y'|]; cbn in Hy; [|discriminate Hy]. assert (y = y') as -> by congruence. apply Hnb. reflexivity.
      + destruct n; cbn in Hy; discriminate Hy.
      + destruct n; cbn in Hy; discriminate Hy.
    - intros text Ett. refine (Tf t cb s1 n d x w lst rc pinned eq_refl eq_refl eq_refl Et Ser Ecb Rp Hd Hn _ text _ Ett). unfold masa_voucher, masa_content. destruct n; exactly. }
  destruct (nonce_cases w Hwf) as [[Ene Hn]|[Ene [dn Hn]]]; rewrite Ene.
  - refine (masa_rest sc lk o h0 cert key extra c k l t cb rc pinned h3 v unset None init_voucher init_voucher W Ac Ak Al Ecb Bp eq_refl G3 Hv3 A3 agrees_unset _ eq_refl eq_refl _); [repeat split|].
    intros d Rp Hd Hl. exact (Fits None d Hn Rp Hd Hl).
  - pose proof Hn as Egn. unfold nonce_is in Egn. cbn [get_attr_array] in Egn. assert (Evn : v_nonce w = ba_of dn) by congruence. rewrite Evn.
    assert (Pv : vr <> v) by (apply (lk_cell _ _ _ _ _ vr Hv3); unfold rest_of; cbn [sc_F sc_Fr sc]; apply in_or_app; right; apply in_or_app; left; destruct Hr as (fs' & _ & _ & _ & _ & ->); left; reflexivity).
    assert (Step : forall h', stepped base v h3 h' -> around sc h') by (intros h' St; exact (around_step _ lk _ _ _ _ _ _ A3 Hv3 (incl_refl _) St)).
    apply (set_or_step bytes (N * heap) (ends_by lk h0) (fun m e => Logic.I) base h3 v unset (rest_of sc lk) init_voucher init_voucher ANonce (HArr (vr, 5%nat)) (VArr (Some (ba_of dn))));
      [exact Hv3|apply agrees_unset|repeat split|reflexivity|split; [eapply (vch_array _ _ _ _ _ ANonce); [apply A3|exact Ag|reflexivity|exact Hn]|exact Pv]| |].
    + intros h' f' St Hs'. pose proof (gentle_trans _ _ _ _ G3 (proj1 St)) as G'. split; [exact (masa_fails sc lk h0 h' v f' _ G' Hs' (Step _ St) (or_introl eq_refl))|].
      intros Rf t'. exact (masa_fails sc lk h0 h' v f' _ G' Hs' (Step _ St) (or_intror (refused_gentle _ _ _ _ G3 Rf))).
    + intros h4 pl4 p4 St4 Av4 Hv4 Ag4 Sp4. apply arg_arr in Av4. destruct Av4 as (d & Hd & ->). assert (d = dn) as -> by (eapply ba_has_fun; [exact Hd|apply ba_of_has]). cbn [put_f] in Hv4, Ag4.
      refine (masa_rest sc lk o h0 cert key extra c k l t cb rc pinned h4 v (upd unset ANonce (Some dn)) (Some dn) _ pl4 W Ac Ak Al Ecb Bp eq_refl (gentle_trans _ _ _ _ G3 (proj1 St4)) Hv4 (Step _ St4) Ag4 Sp4 eq_refl eq_refl _).
      intros d Rp Hd' Hl. exact (Fits (Some dn) d Hn Rp Hd' Hl).
Qed.
