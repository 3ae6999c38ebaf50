(** Proofs about the memory of request.c: the pledge's voucher request. *)
From Coq Require Import Permutation ZifyBool ZifyNat ZifyN.
From Verif Require Import Base PBase MBase64 MSerialize MOs MJsmn MVoucher SVoucher PVoucher SJson PVoucherText PVoucherRound MCrypto MRequest SRequest PRequest PRequest2
  MHeap MArray MVoucherHeap MConfig MHandlers MSerialHeap MRequestHeap SHeap SArray SVoucherHeap SSerialHeap PHeap PArray PBlocks POwn PHold
  PVoucherHeap PVoucherHeapJson PVoucherHeapOom PAcquire PSerialHeap PSerialHeap3 PSerialHeap4 SRequestHeap PRequestHeap.
Open Scope N_scope.

Definition ends (h0 : heap) (m : outcome (N * heap)) (t : outcome (option bytes)) : Prop :=
  match t with UB _ => True | Ok r => gets h0 m r end.

Lemma ext_of : forall h0 h, heap_wf h -> gentle (hp_next h0) h0 h -> ext h0 h.
Proof. intros h0 h W (K & Ho & Hn). split; [exact W|]. auto. Qed.
Lemma refused_end : forall h0 h1 h2, refused h0 h1 -> hp_next h1 <= hp_next h2 -> refused h0 h2.
Proof. intros. eapply refused_later; eassumption. Qed.

Lemma ends_fail : forall h0 h' t, ext h0 h' -> hold (hp_next h0) h' [] -> (t = Ok None \/ refused h0 h') -> ends h0 (Ok (0, h')) t.
Proof.
  intros h0 h' t E H Q. destruct t as [r|k]; [|exact Logic.I]. split; [exact E|]. left. split; [reflexivity|]. split; [exact H|]. destruct Q as [Q|Q]; [left; congruence|right; exact Q].
Qed.

Lemma fail_one : forall h0 h v f t, vstate (hp_next h0) h v f [] -> gentle (hp_next h0) h0 h -> (t = Ok None \/ refused h0 h) ->
  ends h0 (obind (h_free_voucher h v) (fun h => Ok (0, h))) t.
Proof.
  intros h0 h v f t Hs G Q. destruct (free_hold _ _ _ _ _ Hs) as (h' & E & G' & Hn & H & _). rewrite E. cbn [obind].
  apply ends_fail; [apply ext_of; [eapply hold_wf; exact H|eapply gentle_trans; eassumption]|exact H|]. destruct Q as [Q|Q]; [left; exact Q|right; eapply refused_later; [exact Q|lia]].
Qed.

(** Signing and then releasing. *)
Lemma gets_later : forall h0 h m t, heap_wf h0 -> gentle (hp_next h0) h0 h -> hold (hp_next h0) h [] -> gets h m t -> gets h0 m t.
Proof.
  intros h0 h m t W G H X. pose proof (ext_of _ _ (hold_wf _ _ _ H) G) as E. pose proof E as (_ & Hn & _ & Ho). destruct m as [[p h']|k]; cbn [gets] in *.
  - destruct X as [E' X]. split; [eapply ext_trans; eassumption|]. destruct X as [(-> & H' & Q)|(d & b & -> & A & H')].
    + left. split; [reflexivity|]. split; [exact (hold_grow _ _ _ _ _ H E' H')|]. destruct Q as [Q|Q]; [left; exact Q|right; eapply refused_before; eassumption].
    + right. exists d, b. split; [reflexivity|]. split; [exact A|]. pose proof (hold_grow _ _ _ _ _ H E' H') as H2. rewrite app_nil_r in H2. exact H2.
  - destruct X as [-> X]. split; [reflexivity|]. eapply starved_before; eassumption.
Qed.

Lemma sign_then_free : forall o h0 h v f lk pl w cert key certs c k l r (fin : N -> heap -> outcome (N * heap)),
  vstate (hp_next h0) h v f lk -> gentle (hp_next h0) h0 h -> agrees f w -> same_plain w pl -> fits w ->
  array_at h (cert, 0%nat) c -> array_at h (key, 0%nat) k -> h_certlist h certs = Ok l ->
  sign_cms_voucher o (Some w) c k l = Ok r ->
  (forall h', gentle (hp_next h0) h h' -> vstate (hp_next h0) h' v f lk -> (forall a, is_live h a -> hp_cell h' a = hp_cell h a) -> r = None \/ refused h0 h' -> gets h0 (fin 0 h') r) ->
  (forall h' p b d, gentle (hp_next h0) h h' -> vstate (hp_next h0) h' v f ((p :: nz b) ++ lk) -> (forall a, is_live h a -> hp_cell h' a = hp_cell h a) -> r = Some d -> p <> 0 -> arr_new h' p b d -> gets h0 (fin p h') r) ->
  gets h0 (obind (h_sign_cms_voucher o h v pl cert key certs) (fun r => fin (fst r) (snd r))) r.
Proof.
  intros o h0 h v f lk pl w cert key certs c k l r fin Hs G Ha Hp Fw Hc Hk Hl Er Fnone Fsome.
  pose proof (sign_gets o h v pl w cert key certs c k l r (vstate_wf _ _ _ _ _ Hs) (vstate_in_memory _ _ _ _ _ _ _ Hs Ha Hp) Fw Hc Hk Hl Er) as X.
  pose proof G as (_ & Go & Gn). destruct (h_sign_cms_voucher o h v pl cert key certs) as [[p h']|e]; cbn [obind fst snd gets] in *.
  - destruct X as [E' X]. assert (Bn : hp_next h0 <= hp_next h) by exact Gn. pose proof (gentle_of_ext _ _ _ Bn E') as G'.
    assert (K : forall a, is_live h a -> hp_cell h' a = hp_cell h a) by (intros a Hl'; destruct E' as (_ & _ & K & _); apply K; apply live_below; [eapply vstate_wf; exact Hs|exact Hl']).
    destruct X as [(-> & H' & Q)|(d & b & Er' & A & H')].
    + apply Fnone; [exact G'|exact (vstate_grow _ _ _ _ _ _ _ Hs E' H')|exact K|]. destruct Q as [Q|Q]; [left; exact Q|right; eapply refused_before; eassumption].
    + eapply Fsome; [exact G'|exact (vstate_grow _ _ _ _ _ _ _ Hs E' H')|exact K|exact Er'| |exact A]. apply (hold_in _ _ _ p H' (or_introl eq_refl)).
  - destruct X as [-> X]. split; [reflexivity|]. eapply starved_before; eassumption.
Qed.

Lemma arr_new_frame : forall h h' p b d, arr_new h p b d -> (forall a, a = p \/ In a (nz b) -> hp_cell h' a = hp_cell h a) -> arr_new h' p b d.
Proof.
  intros h h' p b d (C & D) K. split; [rewrite K by (left; reflexivity); exact C|]. destruct D as [D|[B0 D]]; [left; exact D|right]. split; [exact B0|]. rewrite K; [exact D|]. right. unfold nz. rewrite (proj2 (N.eqb_neq _ _) B0). left. reflexivity.
Qed.

Lemma ba_has_bytes : forall b d, ba_bytes b -> ba_has b d -> bytes_ok d.
Proof.
  intros b d Hb (b' & rest & -> & E & _). cbn in Hb. rewrite E in Hb. destruct Hb as [Hb _]. apply Forall_app in Hb. apply Hb.
Qed.

Lemma pledge_gets : forall o h0 created serial nonce rtls cert key extra s n rt c k l,
  heap_wf h0 -> string_at h0 serial s -> array_at h0 (nonce, 0%nat) n -> array_at h0 (rtls, 0%nat) rt -> array_at h0 (cert, 0%nat) c -> array_at h0 (key, 0%nat) k ->
  h_certlist h0 extra = Ok l -> ba_bytes n -> ba_bytes rt ->
  (forall t s' n' rt', created = Some t -> s = Some s' -> opt_has n n' -> ba_has rt rt' -> text_fits (pledge_content t s' n' rt')) ->
  ends h0 (h_sign_pledge_voucher_request o h0 created serial nonce rtls cert key extra) (sign_pledge_voucher_request o created s n rt c k l).
Proof.
  intros o h0 created serial nonce rtls cert key extra s n rt c k l W As An Art Ac Ak Al Bn Brt Tf. unfold h_sign_pledge_voucher_request, sign_pledge_voucher_request.
  destruct (h_init_voucher h0) as [v h1] eqn:Ei. pose proof Ei as Ei'. unfold h_init_voucher in Ei'.
  destruct (hold_alloc _ _ _ v_node (hold_init _ W)) as (v' & h1' & Ea & X1 & Hn & Cs). rewrite Ei' in Ea. injection Ea as <- <-.
  destruct Cs as [(-> & Oom & _ & H1)|(Hv & V0 & Oom & _)].
  { cbn [N.eqb]. apply ends_fail; [exact X1|exact H1|]. right. apply refused_here; [exact Oom|lia]. }
  rewrite (proj2 (N.eqb_neq _ _) V0). destruct (init_state _ _ _ W Ei V0) as [Hs G1]. set (base := hp_next h0) in *.
  assert (Low : forall b x, array_at h0 (b, 0%nat) x -> x <> None -> b <> v).
  { intros b [x|] Hb Hx; [|congruence]. destruct Hb as (B0 & fs & p & Cb & _). intros ->. cbn [fst] in Cb. assert (Q : is_live h0 v) by (eexists; exact Cb). pose proof (live_below _ _ W Q). unfold base in *. lia. }
  assert (Low' : forall b x, array_at h0 (b, 0%nat) x -> b <> v).
  { intros b [x|] Hb; [apply (Low _ _ Hb); discriminate|]. cbn in Hb. congruence. }
  assert (Fail : forall h f h' f', gentle base h0 h -> vstate base h v f [] -> stepped base v h h' -> vstate base h' v f' [] ->
    ends h0 (obind (h_free_voucher h' v) (fun h => Ok (0, h))) (Ok None) /\ (refused h h' -> forall t, ends h0 (obind (h_free_voucher h' v) (fun h => Ok (0, h))) t)).
  { intros h f h' f' G _ [G' _] Hs'. pose proof (gentle_trans _ _ _ _ G G') as G2. split; [eapply fail_one; [exact Hs'|exact G2|left; reflexivity]|].
    intros R t. eapply fail_one; [exact Hs'|exact G2|right]. eapply refused_gentle; [exact G|exact R]. }
  assert (At : forall h b x, gentle base h0 h -> array_at h0 b x -> array_at h b x) by (intros h b x G; eapply array_at_kept; [exact W|reflexivity|apply G]).
  assert (Ss : forall h b x, gentle base h0 h -> string_at h0 b x -> string_at h b x) by (intros h b x G; eapply string_at_kept; [exact W|reflexivity|apply G]).
  assert (Un : forall f a b x, owning b -> a <> b -> f b = None -> (upd f a x) b = (None : option bytes)) by (intros f a b x _ Hab Hb; unfold upd; destruct (attr_dec a b); [contradiction|exact Hb]).
  assert (Rest : forall h pl f w, gentle base h0 h -> vstate base h v f [] -> agrees f w -> same_plain w pl -> f AProximity = None -> f ASerial = None ->
    (forall s' rt', s = Some s' -> blen s' < 128 -> ba_has rt rt' -> fits (put_value (put_value (put_value w AAssertion (PEnum 3)) AProximity (PArr rt')) ASerial (PStr s'))) ->
    ends h0
      (h_set_or h v pl AAssertion (HInt 3) (fun h => obind (h_free_voucher h v) (fun h => Ok (0, h))) (fun pl h =>
       h_set_or h v pl AProximity (HArr (rtls, 0%nat)) (fun h => obind (h_free_voucher h v) (fun h => Ok (0, h))) (fun pl h =>
       h_set_or h v pl ASerial (HStr serial) (fun h => obind (h_free_voucher h v) (fun h => Ok (0, h))) (fun pl h =>
       obind (h_sign_cms_voucher o h v pl cert key extra) (fun r => obind (h_free_voucher (snd r) v) (fun h => Ok (fst r, h)))))))
      (set_or_fail w AAssertion (VInt 3) (fun v => set_or_fail v AProximity (VArr rt) (fun v => set_or_fail v ASerial (vstr s) (fun v => sign_cms_voucher o (Some v) c k l))))).
  { intros h pl f w G Hs0 Ag Sp F1 F2 Fit.
    apply (set_or_step bytes (N * heap) (ends h0) (fun m e => Logic.I) base h v f [] pl w AAssertion (HInt 3) (VInt 3)); [exact Hs0|exact Ag|exact Sp|intros [X|X]; discriminate|reflexivity|intros h' f'; apply (Fail h f h' f' G Hs0)|].
    intros h2 pl2 p2 St2 Av2 Hs2 Ag2 Sp2. apply arg_enum in Av2. subst p2. pose proof (gentle_trans _ _ _ _ G (proj1 St2)) as G2. cbn [put_f] in Hs2, Ag2.
    apply (set_or_step bytes (N * heap) (ends h0) (fun m e => Logic.I) base h2 v f [] pl2 _ AProximity (HArr (rtls, 0%nat)) (VArr rt));
      [exact Hs2|exact Ag2|exact Sp2|intros _; exact F1|split; [apply At; assumption|apply (Low' _ _ Art)]|intros h' f'; apply (Fail h2 f h' f' G2 Hs2)|].
    intros h3 pl3 p3 St3 Av3 Hs3 Ag3 Sp3. apply arg_arr in Av3. destruct Av3 as (rt' & Hrt & ->). pose proof (gentle_trans _ _ _ _ G2 (proj1 St3)) as G3. cbn [put_f] in Hs3, Ag3.
    apply (set_or_step bytes (N * heap) (ends h0) (fun m e => Logic.I) base h3 v (upd f AProximity (Some rt')) [] pl3 _ ASerial (HStr serial) (vstr s));
      [exact Hs3|exact Ag3|exact Sp3|intros _; apply Un; [right; reflexivity|discriminate|exact F2]|exists s; split; [apply Ss; assumption|reflexivity]|intros h' f'; apply (Fail h3 _ h' f' G3 Hs3)|].
    intros h4 pl4 p4 St4 Av4 Hs4 Ag4 Sp4. apply arg_str in Av4; [|intros x ->; destruct As as (_ & Ct & _); apply cstr_no0; exact Ct]. destruct Av4 as (s' & -> & Hs' & ->).
    pose proof (gentle_trans _ _ _ _ G3 (proj1 St4)) as G4. cbn [put_f] in Hs4, Ag4.
    destruct (sign_cms_voucher o _ c k l) as [r|e] eqn:Er; [|exact Logic.I]. cbn [ends].
    eapply (sign_then_free o h0 h4 v _ [] pl4 _ cert key extra c k l r (fun p h => obind (h_free_voucher h v) (fun h => Ok (p, h)))); [exact Hs4|exact G4|exact Ag4|exact Sp4|apply Fit; [reflexivity|exact Hs'|exact Hrt]|apply At; assumption|apply At; assumption| |exact Er| |].
    - eapply ext_certlist; [exact W|apply ext_of; [eapply vstate_wf; exact Hs4|exact G4]|exact Al].
    - intros h5 G5 Hs5 K5 Q5. apply (fail_one h0 h5 v _ (Ok r) Hs5 (gentle_trans _ _ _ _ G4 G5)). destruct Q5 as [->|Q5]; [left; reflexivity|right; exact Q5].
    - intros h5 p b d G5 Hs5 K5 -> P0 A5. destruct (free_hold _ _ _ _ _ Hs5) as (h6 & E6 & G6 & Hn6 & H6 & K6). rewrite E6. cbn [obind gets]. rewrite app_nil_r in H6.
      split; [apply ext_of; [eapply hold_wf; exact H6|eapply gentle_trans; [exact G4|eapply gentle_trans; [exact G5|exact G6]]]|]. right. exists d, b. split; [reflexivity|]. split; [|exact H6].
      eapply arr_new_frame; [exact A5|]. intros a Ha. apply K6. apply (hold_in _ _ _ a H6). destruct Ha as [->|Ha]; [left; reflexivity|right; exact Ha]. }
  assert (Fits : forall t n' s' rt' w, created = Some t -> s = Some s' -> blen s' < 128 -> opt_has n n' -> ba_has rt rt' -> holds_exactly w (pledge_content t s' n' rt') ->
    v_serial w = Some s' -> v_issuer w = ba_null -> v_pinned w = ba_null -> v_prior w = ba_null -> v_proximity w = ba_of rt' -> v_nonce w = match n' with Some d => ba_of d | None => ba_null end -> fits w).
  { intros t n' s' rt' w Ht -> Hl On Hrt Hx E1 E2 E3 E4 E5 E6. split; [|split].
    - intros x Hx'. assert (x = s') as -> by congruence. unfold SIZE_MAX. lia.
    - intros a b d Hb Hd. destruct a; cbn [get_attr_array] in Hb; try discriminate; assert (Eb : b = _) by (symmetry; injection Hb as Hb; exact Hb); rewrite Eb in Hd.
      + rewrite E2 in Hd. discriminate.
      + rewrite E3 in Hd. discriminate.
      + rewrite E6 in Hd. destruct n' as [d'|]; [|discriminate]. assert (d = d') as -> by (cbn in Hd; congruence). destruct n as [n|]; [|contradiction]. eapply ba_has_bytes; [exact Bn|exact On].
      + rewrite E4 in Hd. discriminate.
      + rewrite E5 in Hd. assert (d = rt') as -> by (cbn in Hd; congruence). eapply ba_has_bytes; eassumption.
    - intros text Et. eapply (Tf t s' n' rt' Ht eq_refl On Hrt); eassumption. }
  apply (set_or_step bytes (N * heap) (ends h0) (fun m e => Logic.I) base h1 v unset [] init_voucher init_voucher ACreatedOn (HTime created) (VTime created)); [exact Hs|apply agrees_unset|repeat split|reflexivity|reflexivity|intros h' f'; apply (Fail h1 unset h' f' G1 Hs)|].
  intros h2 pl2 p2 St2 Av2 Hs2 Ag2 Sp2. apply arg_time in Av2. destruct Av2 as (t & Et & ->). pose proof (gentle_trans _ _ _ _ G1 (proj1 St2)) as G2. cbn [put_f] in Hs2, Ag2.
  destruct n as [n|].
  - rewrite (proj2 (N.eqb_neq _ _) (proj1 An : nonce <> 0)).
    apply (set_or_step bytes (N * heap) (ends h0) (fun m e => Logic.I) base h2 v unset [] pl2 _ ANonce (HArr (nonce, 0%nat)) (VArr (Some n)));
      [exact Hs2|exact Ag2|exact Sp2|reflexivity|split; [apply At; assumption|apply (Low' _ _ An)]|intros h' f'; apply (Fail h2 _ h' f' G2 Hs2)|].
    intros h3 pl3 p3 St3 Av3 Hs3 Ag3 Sp3. apply arg_arr in Av3. destruct Av3 as (d & Hd & ->). pose proof (gentle_trans _ _ _ _ G2 (proj1 St3)) as G3. cbn [put_f] in Hs3, Ag3.
    apply (Rest h3 pl3 (upd unset ANonce (Some d))); [exact G3|exact Hs3|exact Ag3|exact Sp3|reflexivity|reflexivity|].
    intros s' rt' Es Hl Hrt. eapply (Fits t (Some d) s' rt'); [exact Et|exact Es|exact Hl|exact Hd|exact Hrt|exactly|reflexivity..].
  - cbn in An. subst nonce. cbn [N.eqb]. apply (Rest h2 pl2 unset); [exact G2|exact Hs2|exact Ag2|exact Sp2|reflexivity|reflexivity|].
    intros s' rt' Es Hl Hrt. eapply (Fits t None s' rt'); [exact Et|exact Es|exact Hl|exact Logic.I|exact Hrt|exactly|reflexivity..].
Qed.
