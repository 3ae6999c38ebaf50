(** Proofs about the memory of request.c: the pledge's check of the voucher, the whole. *)
From Coq Require Import Permutation ZifyBool ZifyNat ZifyN.
From Verif Require Import Base PBase MBase64 MSerialize MOs MJsmn MVoucher SVoucher PVoucher SJson PVoucherText PVoucherRound MCrypto MRequest SRequest PRequest PRequest2 PRequest3 PRequest4
  MHeap MArray MVoucherHeap MConfig MHandlers MSerialHeap MRequestHeap SHeap SArray SVoucherHeap SSerialHeap PHeap PArray PBlocks POwn PHold
  PVoucherHeap PVoucherHeapJson PVoucherHeapOom PAcquire PSerialHeap PSerialHeap3 PSerialHeap4 SRequestHeap PRequestHeap PRequestHeap2 PRequestHeap3 PRequestHeap4 PRequestHeap6 PRequestHeap10.
Open Scope N_scope.

Lemma pledge_by : forall o h0 cms serial nonce rtls dstore vcerts vstore want pin x s n rt ld lv ls,
  ossl_sane o -> heap_wf h0 -> array_at h0 cms x -> string_at h0 serial s -> array_at h0 (nonce, 0%nat) n -> array_at h0 (rtls, 0%nat) (Some rt) ->
  h_certlist h0 dstore = Ok ld -> h_certlist h0 vcerts = Ok lv -> h_certlist h0 vstore = Ok ls -> ba_bytes x ->
  (pin = 0 \/ exists p0 n0, hp_cell h0 pin = Live (Struct [P p0; I n0])) ->
  settles (clean o x lv ls) want h0 pin (h_verify_masa_pledge_voucher o h0 cms serial nonce rtls dstore vcerts vstore want pin)
    (verify_masa_pledge_voucher o x s n (Some rt) ld lv ls want (negb (pin =? 0))).
Proof.
  intros o h0 cms serial nonce rtls dstore vcerts vstore want pin x s n rt ld lv ls So W Ax As An Art Ald Alv Als Bx Pin. unfold h_verify_masa_pledge_voucher, verify_masa_pledge_voucher.
  assert (Pn : pin < hp_next h0) by (destruct Pin as [->|(p0 & n0 & C)]; [destruct W; lia|apply live_below; [exact W|eexists; exact C]]).
  destruct s as [s|].
  2:{ cbn in As. subst serial. cbn [N.eqb settles]. split; [exact W|]. split; [lia|]. split; [reflexivity|]. split; [reflexivity|]. right. split; [reflexivity|]. split; [left; reflexivity|]. split; [left; reflexivity|]. exists []. split; [apply hold_init; exact W|auto]. }
  rewrite (proj2 (N.eqb_neq _ _) (proj1 As)). destruct (verify_safe o x lv ls want So Bx) as [t1 Et]. rewrite Et. cbn [obind].
  pose proof (checks_ok o h0 cms vcerts vstore want x lv ls t1 So W Ax Alv Als Et) as X. destruct (h_verify_cms_voucher o h0 cms vcerts vstore want) as [[[[mv mpl] l] h1]|e]; cbn [obind checks] in *.
  2:{ match goal with |- settles _ _ _ _ _ ?t => destruct t end; [exact X|exact Logic.I]. }
  destruct X as [E1 X]. pose proof (gentle_of_ext _ _ _ (N.le_refl _) E1) as G1. pose proof E1 as (W1 & N1 & K1 & O1).
  destruct X as [(-> & Q & L & H1 & HL)|(V0 & w & lst & f & F & lk & -> & Li & Hs & Ag & Sp & HL & HF)].
  { cbn [N.eqb]. match goal with |- settles _ _ _ _ _ ?t => destruct t as [r|k] eqn:Er end; [|exact Logic.I]. cbn [settles]. split; [exact W1|]. split; [exact N1|]. split; [exact O1|]. split; [intros a Ha _; apply K1; exact Ha|].
    right. split; [reflexivity|]. split; [destruct Q as [->|Q]; [left; congruence|right; exact Q]|]. split; [left; apply K1; exact Pn|]. exists L. split; [exact H1|]. intros C Y. left. apply HL; [exact C|left; exact Y]. }
  rewrite (proj2 (N.eqb_neq _ _) V0). destruct x as [x|]; [|discriminate]. apply verify_says in Et. destruct (says_values _ _ _ _ _ _ _ So Et) as [Wa Wst].
  pose proof Hs as Hs0. apply vstate_vch in Hs0. destruct Hs0 as (Fv & Hv & Hh).
  assert (Wsr : forall u, v_serial w = Some u -> cstr_ok u) by (intros u Hu; apply (Wst u); cbn [get_attr_str]; rewrite Hu; reflexivity).
  destruct (vch_serial _ _ _ _ _ Hv Ag Wsr) as (vs & Gp & Svs & _). rewrite Gp. cbn [obind get_attr_str is_attr_nonempty].
  assert (Fail : settles (clean o (Some x) lv ls) want h0 pin (obind (h_free_voucher h1 mv) (fun h => Ok ((-1)%Z, l, h))) (Ok None)).
  { eapply (settles_fail _ want h0 pin h1 l mv f Fv (lk ++ F)); [exact N1|exact O1|intros a Ha _; apply K1; exact Ha|exact Pn|exact Hv|exact Hh|left; reflexivity|left; apply K1; exact Pn|].
    intros C Y. left. rewrite (HL C), (HF Y). reflexivity. }
  destruct (v_serial w) as [s1|] eqn:Ews; cbn [negb]; [|cbn in Svs; subst vs; cbn [N.eqb]; exact Fail]. rewrite (proj2 (N.eqb_neq _ _) (proj1 Svs)).
  unfold h_strcmp_eq. rewrite (string_at_read h1 serial s) by (eapply string_at_kept; [exact W|reflexivity|apply G1|exact As]). cbn [obind]. rewrite (string_at_read _ _ _ Svs). cbn [obind strcmp_eq].
  destruct (beqb s s1); cbn [negb]; [|exact Fail].
  assert (Hw : forall a, h_is_attr_nonempty h1 mv mpl a = Ok (is_attr_nonempty w a)) by (intros a; apply nonempty_same; exact (vstate_in_memory _ _ _ _ _ _ _ Hs Ag Sp)).
  pose proof (Hw ANonce) as En. pose proof (Hw APinned) as Ep. unfold h_is_attr_nonempty in En, Ep. cbn [arr_field] in En, Ep. rewrite En, Ep. clear Hw.
  assert (Nc : (if nonce =? 0 then Ok true else obind (Ok (is_attr_nonempty w ANonce)) (fun e => if e then obind (h_compare h1 (nonce, 0%nat) (mv, 5%nat)) (fun c => Ok (negb (c <? 1)%Z)) else Ok false)) =
    match n with None => Ok true | Some _ => if is_attr_nonempty w ANonce then match get_attr_array (Some w) ANonce with None => Ok false | Some mn => obind (compare_binary_array n (Some mn)) (fun c => Ok (negb (c <? 1)%Z)) end else Ok false end).
  { destruct n as [n|]; [|cbn in An; rewrite An; reflexivity]. rewrite (proj2 (N.eqb_neq _ _) (proj1 An : nonce <> 0)). cbn [obind]. destruct (is_attr_nonempty w ANonce) eqn:Y; [|reflexivity].
    destruct (get_attr_array (Some w) ANonce) as [mn|] eqn:Gn; [|cbn [get_attr_array] in Gn; discriminate Gn]. unfold h_compare.
    rewrite (array_at_read h1 (nonce, 0%nat) (Some n)) by (eapply array_at_kept; [exact W|reflexivity|apply G1|exact An]). cbn [obind].
    rewrite (array_at_read _ _ _ (vch_array _ _ _ _ _ ANonce _ _ Hv Ag eq_refl Gn)). reflexivity. }
  cbn [is_attr_nonempty] in Nc |- *. rewrite Nc. clear Nc En. match goal with |- context [obind ?m _] => destruct m as [nok|k] end; cbn [obind].
  2:{ exact Logic.I. }
  destruct nok; cbn [negb]; [|exact Fail]. cbn [is_attr_nonempty] in Ep |- *. destruct (is_attr_array_nonempty (Some (v_pinned w))) eqn:Epn; cbn [negb]; [|exact Fail]. clear Fail Ep.
  destruct (get_attr_array (Some w) APinned) as [pinned|] eqn:Gpn; [|cbn [get_attr_array] in Gpn; discriminate Gpn].
  assert (Hd : exists d, pinned = ba_of d).
  { pose proof Gpn as Y. rewrite (proj2 Ag APinned 3%nat eq_refl) in Y. destruct (f APinned) as [d|]; [exists d; symmetry; injection Y as Y; exact Y|]. exfalso. cbn [get_attr_array] in Gpn. assert (v_pinned w = pinned) as Z1 by congruence. rewrite Z1 in Epn. assert (pinned = ba_null) as Z2 by (symmetry; injection Y as Y; exact Y). rewrite Z2 in Epn. discriminate Epn. }
  destruct Hd as [d ->].
  apply (pledge_tail o (clean o (Some x) lv ls) want h0 pin rtls rt dstore ld h1 mv f Fv F lk l lst w d W Art Ald Pin G1 Hv Ag Hh Li HL HF Gpn).
Qed.
