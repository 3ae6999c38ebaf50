(** Proofs about the memory of request.c: the registrar's voucher request. *)
From Coq Require Import Permutation ZifyBool ZifyNat ZifyN.
From Verif Require Import Base PBase MBase64 MSerialize MOs MJsmn MVoucher SVoucher PVoucher SJson PVoucherText PVoucherRound MCrypto MRequest SRequest PRequest PRequest2 PRequest3
  MHeap MArray MVoucherHeap MConfig MHandlers MSerialHeap MRequestHeap SHeap SArray SVoucherHeap SSerialHeap PHeap PArray PBlocks POwn PHold
  PVoucherHeap PVoucherHeapJson PVoucherHeapOom PAcquire PSerialHeap PSerialHeap3 PSerialHeap4 SRequestHeap PRequestHeap PRequestHeap2 PRequestHeap3.
Open Scope N_scope.

(** A result beside the blocks [lk]. *)
Definition gotten (lk : list N) (h : heap) (r : outcome (N * heap)) (t : option bytes) : Prop :=
  match r with
  | UB k => k = NullDeref /\ starved h
  | Ok (p, h') => ext h h' /\
      ((p = 0 /\ hold (hp_next h) h' lk /\ (t = None \/ refused h h')) \/
       (exists d b, t = Some d /\ arr_new h' p b d /\ hold (hp_next h) h' ((p :: nz b) ++ lk)))
  end.
Definition ends_by (lk : list N) (h0 : heap) (m : outcome (N * heap)) (t : outcome (option bytes)) : Prop :=
  match t with UB _ => True | Ok r => gotten lk h0 m r end.

Lemma gotten_gets : forall h m t, gotten [] h m t -> gets h m t.
Proof.
  intros h [[p h']|k] t H; [|exact H]. destruct H as [E H]. split; [exact E|]. destruct H as [H|(d & b & -> & A & H)]; [left; tauto|right]. exists d, b. rewrite app_nil_r in H. auto.
Qed.

Lemma sign_cases : forall o base h v f lk pl w cert key certs c k l r,
  vstate base h v f lk -> agrees f w -> same_plain w pl -> fits w ->
  array_at h (cert, 0%nat) c -> array_at h (key, 0%nat) k -> h_certlist h certs = Ok l -> sign_cms_voucher o (Some w) c k l = Ok r ->
  match h_sign_cms_voucher o h v pl cert key certs with
  | UB e => e = NullDeref /\ starved h
  | Ok (p, h') => gentle base h h' /\ (forall a, is_live h a -> hp_cell h' a = hp_cell h a) /\
     ((p = 0 /\ vstate base h' v f lk /\ (r = None \/ refused h h')) \/
      (p <> 0 /\ exists d b, r = Some d /\ arr_new h' p b d /\ vstate base h' v f ((p :: nz b) ++ lk)))
  end.
Proof.
  intros o base h v f lk pl w cert key certs c k l r Hs Ha Hp Fw Hc Hk Hl Er.
  pose proof (sign_gets o h v pl w cert key certs c k l r (vstate_wf _ _ _ _ _ Hs) (vstate_in_memory _ _ _ _ _ _ _ Hs Ha Hp) Fw Hc Hk Hl Er) as X.
  destruct (h_sign_cms_voucher o h v pl cert key certs) as [[p h']|e]; cbn [gets] in *; [|exact X].
  destruct X as [E' X]. assert (Bn : base <= hp_next h) by (destruct Hs as (fs & (_ & B & _) & _); exact B). split; [apply gentle_of_ext; assumption|].
  split; [intros a La; destruct E' as (_ & _ & K & _); apply K; apply live_below; [eapply vstate_wf; exact Hs|exact La]|].
  destruct X as [(-> & H' & Q)|(d & b & Er' & A & H')].
  - left. split; [reflexivity|]. split; [exact (vstate_grow _ _ _ _ _ _ _ Hs E' H')|exact Q].
  - right. split; [apply (hold_in _ _ _ p H' (or_introl eq_refl))|]. exists d, b. split; [exact Er'|]. split; [exact A|exact (vstate_grow _ _ _ _ _ _ _ Hs E' H')].
Qed.

(** *** The fields of a voucher as arguments *)
Lemma vch_array : forall h v f F w a i b, vch h v f F -> agrees f w -> arr_field a = Some i -> get_attr_array (Some w) a = Some b -> array_at h (v, i) (Some b).
Proof.
  intros h v f F w a i b (fs & V0 & C & [S1 S2] & [_ V2] & _) [_ A2] Hi Hb. rewrite (A2 a i Hi) in Hb. specialize (V2 a i Hi). destruct (arr_field_in _ _ Hi) as [Ip _].
  destruct (S1 i Ip) as [p Hp]. assert (Ep : ptr_at fs i = p) by (unfold ptr_at; rewrite Hp; reflexivity). unfold arr_at in V2. rewrite Ep in V2. cbn [array_at fst snd].
  destruct (f a) as [d|]; assert (Eb : b = _) by (symmetry; injection Hb as Hb; exact Hb); rewrite Eb; cbn [ba_data ba_len ba_of ba_null] in *.
  - destruct V2 as (P0 & Cp & N1). split; [exact V0|]. exists fs, p. repeat (split; [assumption|]). apply N.le_refl.
  - destruct V2 as (P0 & N1). split; [exact V0|]. exists fs, p. auto.
Qed.
Lemma vch_serial : forall h v f F w, vch h v f F -> agrees f w -> (forall t, v_serial w = Some t -> cstr_ok t) ->
  exists p, get_ptr h v 0 = Ok p /\ string_at h p (v_serial w) /\ (p <> 0 -> In p F).
Proof.
  intros h v f F w (fs & V0 & C & [S1 S2] & [V1 _] & ->) [A1 _] Hc. destruct (S1 0%nat (or_introl eq_refl)) as [p Hp]. assert (Ep : ptr_at fs 0 = p) by (unfold ptr_at; rewrite Hp; reflexivity).
  exists p. split; [eapply get_ptr_at; eassumption|]. unfold ser_at in V1. rewrite Ep, A1 in V1. split.
  - destruct (v_serial w) as [t|]; [|exact V1]. destruct V1 as (P0 & d & Cp & Z0 & Ed). split; [exact P0|]. split; [apply Hc; reflexivity|]. exists d. auto.
  - intros P0. right. rewrite <- Ep. apply own_in; [left; reflexivity|]. rewrite Ep. exact P0.
Qed.

(** *** Two vouchers *)
Lemma vch_live : forall h v f F a, vch h v f F -> In a F -> is_live h a.
Proof.
  intros h v f F a (fs & V0 & C & S & [V1 V2] & ->) [<-|Ha]; [eexists; exact C|].
  unfold own in Ha. apply filter_In in Ha. destruct Ha as [Ha Hz]. apply in_map_iff in Ha. destruct Ha as (i & <- & Hi). apply negb_true_iff, N.eqb_neq in Hz.
  assert (Ar : forall b, arr_field b = Some i -> is_live h (ptr_at fs i)).
  { intros b Hb. specialize (V2 b i Hb). unfold arr_at in V2. destruct (f b) as [d|]; [destruct V2 as (_ & X & _); eexists; exact X|destruct V2; contradiction]. }
  cbn in Hi. destruct Hi as [<-|[<-|[<-|[<-|[<-|[<-|[]]]]]]].
  - unfold ser_at in V1. destruct (f ASerial) as [s|]; [destruct V1 as (_ & d & X & _); eexists; exact X|contradiction].
  - apply (Ar AIssuer). reflexivity.
  - apply (Ar APinned). reflexivity.
  - apply (Ar ANonce). reflexivity.
  - apply (Ar APrior). reflexivity.
  - apply (Ar AProximity). reflexivity.
Qed.
Lemma vch_step : forall base v h h' f lk u g G, stepped base v h h' -> vstate base h v f lk -> vch h u g G -> (forall a, In a G -> In a lk) -> vch h' u g G.
Proof.
  intros base v h h' f lk u g G [_ K] Hs Hu Hin. eapply vch_frame; [exact Hu|]. intros a Ha. apply K; [|eapply vch_live; eassumption].
  intros ->. destruct Hs as (fs & (_ & _ & _ & _ & _ & D & _) & _). apply NoDup_cons_iff in D. apply (proj1 D). apply in_or_app. right. apply Hin. exact Ha.
Qed.
Lemma vstate_swap : forall base h v f lk u g G, vstate base h v f (G ++ lk) -> vch h u g G -> exists F, vch h v f F /\ vstate base h u g (F ++ lk).
Proof.
  intros base h v f lk u g G Hs Hu. apply vstate_vch in Hs. destruct Hs as (F & Hv & H). exists F. split; [exact Hv|]. apply vstate_vch. exists G. split; [exact Hu|].
  eapply hold_perm; [|exact H]. apply Permutation_app_swap_app.
Qed.
Lemma free_two : forall base h v f lk u g G, vstate base h v f (G ++ lk) -> vch h u g G ->
  exists h1 h2, h_free_voucher h u = Ok h1 /\ h_free_voucher h1 v = Ok h2 /\ gentle base h h2 /\ hp_next h2 = hp_next h /\ hold base h2 lk /\ (forall a, is_live h2 a -> hp_cell h2 a = hp_cell h a).
Proof.
  intros base h v f lk u g G Hs Hu. destruct (vstate_swap _ _ _ _ _ _ _ _ Hs Hu) as (F & Hv & Hs').
  destruct (free_hold _ _ _ _ _ Hs') as (h1 & E1 & G1 & Hn1 & H1 & K1).
  assert (Hs1 : vstate base h1 v f lk).
  { apply vstate_vch. exists F. split; [|exact H1]. eapply vch_frame; [exact Hv|]. intros a Ha. apply K1. apply (hold_in _ _ _ a H1). apply in_or_app. left. exact Ha. }
  destruct (free_hold _ _ _ _ _ Hs1) as (h2 & E2 & G2 & Hn2 & H2 & K2). exists h1, h2. split; [exact E1|]. split; [exact E2|]. split; [eapply gentle_trans; eassumption|]. split; [congruence|]. split; [exact H2|].
  intros a La. rewrite K2 by exact La. apply K1. pose proof (K2 a La) as X. destruct La as [b Hb]. exists b. congruence.
Qed.

Lemma fail_by : forall lk h0 h h' t, gentle (hp_next h0) h0 h -> gentle (hp_next h0) h h' -> hold (hp_next h0) h' lk -> (t = Ok None \/ refused h0 h) -> ends_by lk h0 (Ok (0, h')) t.
Proof.
  intros lk h0 h h' t G G' H Q. destruct t as [r|k]; [|exact Logic.I]. split; [apply ext_of; [eapply hold_wf; exact H|eapply gentle_trans; eassumption]|]. left. split; [reflexivity|]. split; [exact H|].
  destruct Q as [Q|Q]; [left; congruence|right]. eapply refused_later; [exact Q|]. apply G'.
Qed.

Lemma registrar_by : forall o h0 cms created serial issuer rtls cert key vcerts vstore extra x s i rt c k lv ls l,
  ossl_sane o -> heap_wf h0 -> array_at h0 cms x -> string_at h0 serial s -> array_at h0 (issuer, 0%nat) i -> array_at h0 (rtls, 0%nat) rt -> array_at h0 (cert, 0%nat) c -> array_at h0 (key, 0%nat) k ->
  h_certlist h0 vcerts = Ok lv -> h_certlist h0 vstore = Ok ls -> h_certlist h0 extra = Ok l -> ba_bytes x -> ba_bytes i ->
  (forall t s' n' i' x' xb pvr, created = Some t -> s = Some s' -> ba_has i i' -> ba_has x x' -> x = Some xb -> says o xb lv ls false pvr None -> nonce_is pvr n' -> text_fits (registrar_content t s' n' i' x')) ->
  exists lk, (clean o x lv ls -> lk = []) /\
    ends_by lk h0 (h_sign_voucher_request o h0 cms created serial issuer rtls cert key vcerts vstore extra) (sign_voucher_request o x created s i rt c k lv ls l).
Proof.
  intros o h0 cms created serial issuer rtls cert key vcerts vstore extra x s i rt c k lv ls l So W Ax As Ai Art Ac Ak Alv Als Al Bx Bi Tf. unfold h_sign_voucher_request, sign_voucher_request.
  assert (None_ : exists lk, (clean o x lv ls -> lk = []) /\ ends_by lk h0 (Ok (0, h0)) (Ok None)).
  { exists []. split; [reflexivity|]. eapply fail_by; [apply gentle_refl|apply gentle_refl|apply hold_init; exact W|left; reflexivity]. }
  destruct s as [s|]; [|cbn in As; rewrite As; exact None_]. rewrite (proj2 (N.eqb_neq _ _) (proj1 As)). destruct i as [i|]; [|cbn in Ai; rewrite Ai; exact None_]. rewrite (proj2 (N.eqb_neq _ _) (proj1 Ai : issuer <> 0)). clear None_.
  destruct (verify_safe o x lv ls false So Bx) as [t Et]. rewrite Et. cbn [obind].
  pose proof (checks_ok o h0 cms vcerts vstore false x lv ls t So W Ax Alv Als Et) as X. destruct (h_verify_cms_voucher o h0 cms vcerts vstore false) as [[[[pvr ppl] l0] h1]|e]; cbn [obind checks] in *.
  2:{ exists []. split; [reflexivity|]. match goal with |- ends_by _ _ _ ?t => destruct t end; [exact X|exact Logic.I]. }
  destruct X as [E1 X]. pose proof (gentle_of_ext _ _ _ (N.le_refl _) E1) as G1. destruct X as [(-> & Q & L & H1 & HL)|(V0 & w & lst & fp & F & lk & -> & _ & Hs & Ag & Sp & HL & HF)].
  { cbn [N.eqb]. exists L. split; [intros Y; apply HL; [exact Y|left; reflexivity]|]. eapply fail_by; [exact G1|apply gentle_refl|exact H1|]. destruct Q as [->|Q]; [left; reflexivity|right; exact Q]. }
  rewrite (proj2 (N.eqb_neq _ _) V0). rewrite (HF eq_refl), app_nil_r in Hs. clear HF F. exists lk. split; [exact HL|]. clear HL.
  pose proof Hs as Hs0. apply vstate_vch in Hs0. destruct Hs0 as (Fp & Hp & Hh). set (base := hp_next h0) in *.
  destruct x as [x|]; [|discriminate]. apply verify_says in Et. destruct (says_values _ _ _ _ _ _ _ So Et) as [Wa Wst]. pose proof (says_wf _ _ _ _ _ _ _ So Et) as Hwf.
  assert (lst = None) as -> by (destruct Et as (? & ? & ? & _ & _ & Y); exact Y).
  assert (Wsr : forall u, v_serial w = Some u -> cstr_ok u) by (intros u Hu; apply (Wst u); cbn [get_attr_str]; rewrite Hu; reflexivity).
  destruct (vch_serial _ _ _ _ _ Hp Ag Wsr) as (ps & Gp & Sps & _). rewrite Gp. cbn [obind get_attr_str].
  assert (At : forall h b y, gentle base h0 h -> array_at h0 b y -> array_at h b y) by (intros h b y G; eapply array_at_kept; [exact W|reflexivity|apply G]).
  assert (Ss : forall h b y, gentle base h0 h -> string_at h0 b y -> string_at h b y) by (intros h b y G; eapply string_at_kept; [exact W|reflexivity|apply G]).
  unfold strcmp_eq at 1. destruct (v_serial w) as [pst|] eqn:Ews; [|exact Logic.I]. unfold h_strcmp_eq. rewrite (string_at_read _ _ _ Sps). cbn [obind]. rewrite (string_at_read _ _ _ (Ss _ _ _ G1 As)). cbn [obind].
  assert (Fail1 : forall h, h = h1 -> ends_by lk h0 (obind (h_free_voucher h pvr) (fun h => Ok (0, h))) (Ok None)).
  { intros h ->. destruct (free_hold _ _ _ _ _ Hs) as (h' & E' & G' & _ & H' & _). rewrite E'. cbn [obind]. eapply fail_by; [exact G1|exact G'|exact H'|left; reflexivity]. }
  destruct (beqb pst s); cbn [negb]; [|apply Fail1; reflexivity].
  destruct (get_attr_array (Some w) AProximity) as [px|] eqn:Epx; [|discriminate]. unfold h_compare.
  rewrite (array_at_read _ _ _ (vch_array _ _ _ _ _ AProximity _ _ Hp Ag eq_refl Epx)). cbn [obind]. rewrite (array_at_read _ _ _ (At _ _ _ G1 Art)). cbn [obind].
  destruct (compare_binary_array (Some px) rt) as [cm|e]; cbn [obind]; [|exact Logic.I]. destruct (cm <? 1)%Z; [apply Fail1; reflexivity|].
  cbn [get_attr_enum]. assert (Eas : v_assertion w = v_assertion ppl) by apply Sp. rewrite <- Eas. destruct (negb (v_assertion w =? 3)%Z); [apply Fail1; reflexivity|]. clear Fail1.
  pose proof (vstate_wf _ _ _ _ _ Hs) as W1. destruct (h_init_voucher h1) as [v h2] eqn:Ei. pose proof Ei as Ei'. unfold h_init_voucher in Ei'.
  destruct (hold_alloc _ _ _ v_node (hold_init _ W1)) as (v' & h2' & Ea & X2 & Hn2 & Cs). rewrite Ei' in Ea. assert (v' = v /\ h2' = h2) as [-> ->] by (split; congruence). clear Ea.
  assert (B1 : base <= hp_next h1) by apply G1. pose proof (gentle_of_ext _ _ _ B1 X2) as G12. pose proof (gentle_trans _ _ _ _ G1 G12) as G2.
  assert (Fail : forall h v f t, gentle base h0 h -> vstate base h v f (Fp ++ lk) -> vch h pvr fp Fp -> (t = Ok None \/ refused h0 h) ->
    ends_by lk h0 (obind (h_free_voucher h pvr) (fun h => obind (h_free_voucher h v) (fun h => Ok (0, h)))) t).
  { clear. intros h v f t G Hv Hu Q. destruct (free_two _ _ _ _ _ _ _ _ Hv Hu) as (ha & hb & Ea & Eb & Gb & _ & Hb & _). rewrite Ea. cbn [obind]. rewrite Eb. cbn [obind]. eapply fail_by; [exact G|exact Gb|exact Hb|exact Q]. }
  destruct Cs as [(-> & Oom & Cx & _)|(Hv & Vn & Oom & _)].
  { cbn [N.eqb]. assert (Hs2 : vstate base h2 pvr fp lk) by (pose proof (vstate_grow _ _ _ _ _ _ [] Hs X2) as Y; apply Y; destruct X2 as (W2 & _); eapply hold_same; [apply hold_init; exact W1|exact W2|lia|intros a _; apply Cx]).
    destruct (free_hold _ _ _ _ _ Hs2) as (h' & E' & G' & _ & H' & _). rewrite E'. cbn [obind]. unfold h_free_voucher. cbn [N.eqb obind]. eapply fail_by; [exact G2|exact G'|exact H'|].
    right. eapply refused_gentle; [exact G1|]. apply refused_here; [exact Oom|lia]. }
  rewrite (proj2 (N.eqb_neq _ _) Vn). destruct (init_state _ _ _ W1 Ei Vn) as [Hv0 _].
  assert (Hv2 : vstate base h2 v unset (Fp ++ lk)).
  { apply vstate_vch in Hv0. destruct Hv0 as (Fv & Hvv & Hvh). apply vstate_vch. exists Fv. split; [exact Hvv|]. rewrite app_nil_r in Hvh. exact (hold_grow _ _ _ _ _ Hh X2 Hvh). }
  assert (Hp2 : vch h2 pvr fp Fp). { eapply vch_frame; [exact Hp|]. intros a Ha. destruct X2 as (_ & _ & K & _). apply K. apply (hold_in _ _ _ a Hh). apply in_or_app. left. exact Ha. }
  clear Hv0. assert (Vb : base <= v) by (rewrite Hv; exact B1).
  assert (Low : forall b y, array_at h0 b y -> fst b <> v).
  { intros b [y|] Hb; [|cbn in Hb; congruence]. destruct Hb as (B0 & fs & p & Cb & _). intros Q. assert (La : is_live h0 (fst b)) by (eexists; exact Cb). pose proof (live_below _ _ W La). unfold base in *. lia. }
  assert (Pv : pvr <> v). { intros ->. destruct Hv2 as (fs & (_ & _ & _ & _ & _ & D & _) & _). apply NoDup_cons_iff in D. apply (proj1 D). apply in_or_app. right. apply in_or_app. left. destruct Hp as (fs' & _ & _ & _ & _ & ->). left. reflexivity. }
  assert (Step : forall h f h', vstate base h v f (Fp ++ lk) -> vch h pvr fp Fp -> stepped base v h h' -> vch h' pvr fp Fp) by (intros h f h' Hvh Hu St; eapply vch_step; [exact St|exact Hvh|exact Hu|intros a Ha; apply in_or_app; left; exact Ha]).
  assert (FailS : forall h f h' f', gentle base h0 h -> vstate base h v f (Fp ++ lk) -> vch h pvr fp Fp -> stepped base v h h' -> vstate base h' v f' (Fp ++ lk) ->
    ends_by lk h0 (obind (h_free_voucher h' pvr) (fun h => obind (h_free_voucher h v) (fun h => Ok (0, h)))) (Ok None) /\
    (refused h h' -> forall t, ends_by lk h0 (obind (h_free_voucher h' pvr) (fun h => obind (h_free_voucher h v) (fun h => Ok (0, h)))) t)).
  { intros h f h' f' G Hvh Hu St Hvh'. pose proof (gentle_trans _ _ _ _ G (proj1 St)) as G'. pose proof (Step _ _ _ Hvh Hu St) as Hu'. split; [eapply Fail; [exact G'|exact Hvh'|exact Hu'|left; reflexivity]|].
    intros R t. eapply Fail; [exact G'|exact Hvh'|exact Hu'|right]. eapply refused_gentle; [exact G|exact R]. }
  assert (Un : forall f a b y, owning b -> a <> b -> f b = None -> (upd f a y) b = (None : option bytes)) by (intros f a b y _ Hab Hb; unfold upd; destruct (attr_dec a b); [contradiction|exact Hb]).
  set (rest := fun (pl : voucher) (h : heap) => h_set_or h v pl ASerial (HStr serial) _ _). set (restv := fun v => set_or_fail v ASerial (vstr (Some s)) _).
  assert (Rest : forall h pl f u, gentle base h0 h -> vstate base h v f (Fp ++ lk) -> vch h pvr fp Fp -> agrees f u -> same_plain u pl -> f ASerial = None -> f AIssuer = None -> f APrior = None ->
    (forall i' x', blen s < 128 -> ba_has (Some i) i' -> ba_has (Some x) x' -> fits (put_value (put_value (put_value u ASerial (PStr s)) AIssuer (PArr i')) APrior (PArr x'))) ->
    ends_by lk h0 (rest pl h) (restv u)).
  { intros h pl f u G Hvh Hu Agu Spu F1 F2 F3 Fit. unfold rest, restv.
    apply (set_or_step bytes (N * heap) (ends_by lk h0) (fun m e => Logic.I) base h v f (Fp ++ lk) pl u ASerial (HStr serial) (vstr (Some s)));
      [exact Hvh|exact Agu|exact Spu|intros _; exact F1|exists (Some s); split; [apply Ss; assumption|reflexivity]|intros h' f'; apply (FailS h f h' f' G Hvh Hu)|].
    intros h3 pl3 p3 St3 Av3 Hv3 Ag3 Sp3. apply arg_str in Av3; [|intros y Hy; assert (y = s) as -> by congruence; destruct As as (_ & Ct & _); apply cstr_no0; exact Ct]. destruct Av3 as (s' & Es & Hs' & ->). assert (s' = s) as -> by congruence.
    pose proof (gentle_trans _ _ _ _ G (proj1 St3)) as G3. pose proof (Step _ _ _ Hvh Hu St3) as Hu3. cbn [put_f] in Hv3, Ag3.
    apply (set_or_step bytes (N * heap) (ends_by lk h0) (fun m e => Logic.I) base h3 v (upd f ASerial (Some s)) (Fp ++ lk) pl3 _ AIssuer (HArr (issuer, 0%nat)) (VArr (Some i)));
      [exact Hv3|exact Ag3|exact Sp3|intros _; apply Un; [left; reflexivity|discriminate|exact F2]|split; [apply At; assumption|apply (Low _ _ Ai)]|intros h' f'; apply (FailS h3 _ h' f' G3 Hv3 Hu3)|].
    intros h4 pl4 p4 St4 Av4 Hv4 Ag4 Sp4. apply arg_arr in Av4. destruct Av4 as (i' & Hi & ->). pose proof (gentle_trans _ _ _ _ G3 (proj1 St4)) as G4. pose proof (Step _ _ _ Hv3 Hu3 St4) as Hu4. cbn [put_f] in Hv4, Ag4.
    apply (set_or_step bytes (N * heap) (ends_by lk h0) (fun m e => Logic.I) base h4 v (upd (upd f ASerial (Some s)) AIssuer (Some i')) (Fp ++ lk) pl4 _ APrior (HArr cms) (VArr (Some x)));
      [exact Hv4|exact Ag4|exact Sp4|intros _; apply Un; [left; reflexivity|discriminate|apply Un; [left; reflexivity|discriminate|exact F3]]|split; [apply At; assumption|apply (Low _ _ Ax)]|intros h' f'; apply (FailS h4 _ h' f' G4 Hv4 Hu4)|].
    intros h5 pl5 p5 St5 Av5 Hv5 Ag5 Sp5. apply arg_arr in Av5. destruct Av5 as (x' & Hx & ->). pose proof (gentle_trans _ _ _ _ G4 (proj1 St5)) as G5. pose proof (Step _ _ _ Hv4 Hu4 St5) as Hu5. cbn [put_f] in Hv5, Ag5.
    destruct (sign_cms_voucher o _ c k l) as [r|e] eqn:Er; [|exact Logic.I].
    pose proof (sign_cases o base h5 v _ (Fp ++ lk) pl5 _ cert key extra c k l r Hv5 Ag5 Sp5 (Fit i' x' Hs' Hi Hx) (At _ _ _ G5 Ac) (At _ _ _ G5 Ak) (ext_certlist _ _ _ _ W (ext_of _ _ (vstate_wf _ _ _ _ _ Hv5) G5) Al) Er) as Y.
    destruct (h_sign_cms_voucher o h5 v pl5 cert key extra) as [[cm' h6]|e]; cbn [obind].
    2:{ destruct Y as [-> Y]. split; [reflexivity|]. eapply starved_before; [| |exact Y]; apply G5. }
    destruct Y as (G6 & K6 & Y). pose proof (gentle_trans _ _ _ _ G5 G6) as G06. assert (Hu6 : vch h6 pvr fp Fp) by (eapply vch_frame; [exact Hu5|intros a Ha; apply K6; eapply vch_live; eassumption]).
    destruct Y as [(-> & Hv6 & Q)|(C0 & d & b & -> & A & Hv6)].
    - cbn [N.eqb]. eapply Fail; [exact G06|exact Hv6|exact Hu6|]. destruct Q as [->|Q]; [left; reflexivity|right; eapply refused_gentle; [exact G5|exact Q]].
    - rewrite (proj2 (N.eqb_neq _ _) C0). assert (Hv6' : vstate base h6 v (upd (upd (upd f ASerial (Some s)) AIssuer (Some i')) APrior (Some x')) (Fp ++ (cm' :: nz b) ++ lk)) by (eapply vstate_perm; [|exact Hv6]; apply Permutation_app_swap_app).
      destruct (free_two _ _ _ _ _ _ _ _ Hv6' Hu6) as (ha & hb & Ea & Eb & Gb & Hnb & Hb & Kb). rewrite Ea. cbn [obind]. rewrite Eb. cbn [obind ends_by gotten].
      split; [apply ext_of; [eapply hold_wf; exact Hb|eapply gentle_trans; eassumption]|]. right. exists d, b. split; [reflexivity|]. split; [|exact Hb].
      eapply arr_new_frame; [exact A|]. intros a Ha. apply Kb. apply (hold_in _ _ _ a Hb). apply in_or_app. left. destruct Ha as [->|Ha]; [left; reflexivity|right; exact Ha]. }
  assert (Fits : forall t n' i' x' u, created = Some t -> blen s < 128 -> ba_has (Some i) i' -> ba_has (Some x) x' -> nonce_is w n' -> holds_exactly u (registrar_content t s n' i' x') ->
    v_serial u = Some s -> v_issuer u = ba_of i' -> v_pinned u = ba_null -> v_prior u = ba_of x' -> v_proximity u = ba_null -> v_nonce u = match n' with Some d => ba_of d | None => ba_null end -> fits u).
  { intros t n' i' x' u Ht Hl Hi Hx Hn Hx' E1' E2 E3 E4 E5 E6.
    assert (Hnb : forall d, n' = Some d -> bytes_ok d) by (intros d ->; destruct (Wa _ _ Hn) as [Y|(d2 & Y & Bd)]; [discriminate Y|assert (d = d2) as -> by (unfold ba_of in Y; congruence); exact Bd]). split; [|split].
    - intros y Hy. assert (y = s) as -> by congruence. unfold SIZE_MAX. lia.
    - intros a b d Hb Hd. destruct a; cbn [get_attr_array] in Hb; try discriminate; assert (Eb : b = _) by (symmetry; injection Hb as Hb; exact Hb); rewrite Eb in Hd.
      + rewrite E2 in Hd. assert (d = i') as -> by (cbn in Hd; congruence). eapply ba_has_bytes; [exact Bi|exact Hi].
      + rewrite E3 in Hd. discriminate.
      + rewrite E6 in Hd. destruct n' as [d'|]; [|discriminate]. assert (d = d') as -> by (cbn in Hd; congruence). apply Hnb. reflexivity.
      + rewrite E4 in Hd. assert (d = x') as -> by (cbn in Hd; congruence). eapply ba_has_bytes; [exact Bx|exact Hx].
      + rewrite E5 in Hd. discriminate.
    - intros text Et'. exact (Tf t s n' i' x' x w Ht eq_refl Hi Hx eq_refl Et Hn u text Hx' Et'). }
  apply (set_or_step bytes (N * heap) (ends_by lk h0) (fun m e => Logic.I) base h2 v unset (Fp ++ lk) init_voucher init_voucher ACreatedOn (HTime created) (VTime created));
    [exact Hv2|apply agrees_unset|repeat split|reflexivity|reflexivity|intros h' f'; apply (FailS h2 unset h' f' G2 Hv2 Hp2)|].
  intros h3 pl3 p3 St3 Av3 Hv3 Ag3 Sp3. apply arg_time in Av3. destruct Av3 as (t & Ht & ->). pose proof (gentle_trans _ _ _ _ G2 (proj1 St3)) as G3. pose proof (Step _ _ _ Hv2 Hp2 St3) as Hp3. cbn [put_f] in Hv3, Ag3.
  destruct (vstate_swap _ _ _ _ _ _ _ _ Hv3 Hp3) as (Fv & _ & Hsp).
  pose proof (nonempty_same _ _ _ _ ANonce (vstate_in_memory _ _ _ _ _ _ _ Hsp Ag Sp)) as En. unfold h_is_attr_nonempty in En. cbn [arr_field] in En. rewrite En. cbn [obind].
  destruct (nonce_cases w Hwf) as [[Ene Hn]|[Ene [dn Hn]]]; rewrite Ene.
  - apply (Rest h3 pl3 unset); [exact G3|exact Hv3|exact Hp3|exact Ag3|exact Sp3|reflexivity|reflexivity|reflexivity|].
    intros i' x' Hl Hi Hx. eapply (Fits t None i' x'); [exact Ht|exact Hl|exact Hi|exact Hx|exact Hn|exactly|reflexivity..].
  - pose proof Hn as Egn. unfold nonce_is in Egn. rewrite Egn.
    apply (set_or_step bytes (N * heap) (ends_by lk h0) (fun m e => Logic.I) base h3 v unset (Fp ++ lk) pl3 _ ANonce (HArr (pvr, 5%nat)) (VArr (Some (ba_of dn))));
      [exact Hv3|exact Ag3|exact Sp3|reflexivity|split; [eapply (vch_array _ _ _ _ _ ANonce); [exact Hp3|exact Ag|reflexivity|exact Egn]|exact Pv]|intros h' f'; apply (FailS h3 _ h' f' G3 Hv3 Hp3)|].
    intros h4 pl4 p4 St4 Av4 Hv4 Ag4 Sp4. apply arg_arr in Av4. destruct Av4 as (d & Hd & ->). pose proof (gentle_trans _ _ _ _ G3 (proj1 St4)) as G4. pose proof (Step _ _ _ Hv3 Hp3 St4) as Hp4. cbn [put_f] in Hv4, Ag4.
    assert (d = dn) as -> by (eapply ba_has_fun; [exact Hd|apply ba_of_has]).
    apply (Rest h4 pl4 (upd unset ANonce (Some dn))); [exact G4|exact Hv4|exact Hp4|exact Ag4|exact Sp4|reflexivity|reflexivity|reflexivity|].
    intros i' x' Hl Hi Hx. eapply (Fits t (Some dn) i' x'); [exact Ht|exact Hl|exact Hi|exact Hx|exact Hn|exactly|reflexivity..].
Qed.
