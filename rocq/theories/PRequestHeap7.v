(** Proofs about the memory of request.c: the MASA's voucher, the whole. *)
From Coq Require Import Permutation ZifyBool ZifyNat ZifyN.
From Verif Require Import Base PBase MBase64 MSerialize MOs MJsmn MVoucher SVoucher PVoucher SJson PVoucherText PVoucherRound MCrypto MRequest SRequest PRequest PRequest2 PRequest3 PRequest4
  MHeap MArray MVoucherHeap MConfig MHandlers MSerialHeap MRequestHeap SHeap SArray SVoucherHeap SSerialHeap PHeap PArray PBlocks POwn PHold
  PVoucherHeap PVoucherHeapJson PVoucherHeapOom PAcquire PSerialHeap PSerialHeap3 PSerialHeap4 SRequestHeap PRequestHeap PRequestHeap2 PRequestHeap3 PRequestHeap4 PRequestHeap6.
Open Scope N_scope.

Lemma pin_as_set : forall {A} h v pl x pin (fail : heap -> outcome A) k,
  obind (h_set_attr h v pl APinned x) (fun r => let '(rc, pl, h) := r in obind (h_free_binary_array_content h (pin, 0%nat)) (fun h => obind (sys_free h pin) (fun h => if (rc <? 0)%Z then fail h else k pl h)))
  = h_set_or h v pl APinned x (fun h => obind (h_free_binary_array_content h (pin, 0%nat)) (fun h => obind (sys_free h pin) fail))
      (fun pl h => obind (h_free_binary_array_content h (pin, 0%nat)) (fun h => obind (sys_free h pin) (k pl))).
Proof. intros. unfold h_set_or. destruct (h_set_attr h v pl APinned x) as [[[rc pl'] h']|e]; [|reflexivity]. cbn [obind]. destruct (rc <? 0)%Z; reflexivity. Qed.

Lemma string_at_cell : forall h h' p s, string_at h p s -> hp_cell h' p = hp_cell h p -> string_at h' p s.
Proof. intros h h' p [t|] H E; [|exact H]. destruct H as (P0 & C & d & Cd & X). split; [exact P0|]. split; [exact C|]. exists d. rewrite E. auto. Qed.

Lemma lk_cell : forall base h v f L a, vstate base h v f L -> In a L -> a <> v /\ is_live h a.
Proof.
  intros base h v f L a (fs & (_ & _ & _ & _ & _ & D & G & V) & _) Ha. split.
  - intros ->. apply NoDup_cons_iff in D. apply (proj1 D). apply in_or_app. right. exact Ha.
  - apply V; [apply G|]; right; apply in_or_app; right; exact Ha.
Qed.

Lemma vch_o : forall h v f F, vch h v f F -> ovch h v F.
Proof. intros h v f F H. right. exists f. exact H. Qed.

Lemma perm5 : forall (A B F R P L : list N), Permutation (A ++ B ++ F ++ R ++ P ++ L) (F ++ R ++ P ++ A ++ B ++ L).
Proof.
  intros. replace (A ++ B ++ F ++ R ++ P ++ L) with (((A ++ B) ++ (F ++ R ++ P)) ++ L) by (rewrite <- !app_assoc; reflexivity).
  replace (F ++ R ++ P ++ A ++ B ++ L) with (((F ++ R ++ P) ++ (A ++ B)) ++ L) by (rewrite <- !app_assoc; reflexivity). apply Permutation_app_tail, Permutation_app_comm.
Qed.

(** What the MASA holds beside the voucher it makes. *)
Record scene := mk_scene { sc_l : N; sc_lst : option certlist; sc_F : list N; sc_vr : N; sc_fr : attrs; sc_Fr : list N; sc_pvr : N; sc_fp : attrs; sc_Fp : list N; sc_ps : N; sc_s : bytes }.
Definition rest_of (c : scene) (lk : list N) : list N := sc_F c ++ sc_Fr c ++ sc_Fp c ++ lk.
Definition around (c : scene) (h : heap) : Prop :=
  listed h (sc_l c) (sc_lst c) (sc_F c) /\ vch h (sc_vr c) (sc_fr c) (sc_Fr c) /\ vch h (sc_pvr c) (sc_fp c) (sc_Fp c) /\ string_at h (sc_ps c) (Some (sc_s c)) /\ In (sc_ps c) (sc_Fp c).
Lemma around_frame : forall c lk h h', around c h -> (forall a, In a (rest_of c lk) -> hp_cell h' a = hp_cell h a) -> around c h'.
Proof.
  intros c lk h h' (A1 & A2 & A3 & A4 & A5) K. unfold rest_of in K. assert (I1 : forall a, In a (sc_F c) -> In a (sc_F c ++ sc_Fr c ++ sc_Fp c ++ lk)) by (intros; rewrite !in_app_iff; auto).
  assert (I2 : forall a, In a (sc_Fr c) -> In a (sc_F c ++ sc_Fr c ++ sc_Fp c ++ lk)) by (intros; rewrite !in_app_iff; auto). assert (I3 : forall a, In a (sc_Fp c) -> In a (sc_F c ++ sc_Fr c ++ sc_Fp c ++ lk)) by (intros; rewrite !in_app_iff; auto).
  split; [eapply listed_frame; [exact A1|auto]|]. split; [eapply vch_frame; [exact A2|auto]|]. split; [eapply vch_frame; [exact A3|auto]|]. split; [eapply string_at_cell; [exact A4|auto]|exact A5].
Qed.
Lemma around_step : forall c lk base h h' v f L, around c h -> vstate base h v f L -> incl (rest_of c lk) L -> stepped base v h h' -> around c h'.
Proof.
  intros c lk base h h' v f L A Hs In' [_ K]. eapply (around_frame c lk); [exact A|]. intros a Ha. apply In' in Ha. destruct (lk_cell _ _ _ _ _ _ Hs Ha). apply K; assumption.
Qed.

Definition masa_fail (c : scene) (pvr v : N) (h : heap) : outcome (N * heap) :=
  obind (free_array_list h (sc_l c)) (fun h => obind (h_free_voucher h (sc_vr c)) (fun h => obind (h_free_voucher h pvr) (fun h => obind (h_free_voucher h v) (fun h => Ok (0, h))))).

Lemma masa_fails : forall c lk h0 h v f t, gentle (hp_next h0) h0 h -> vstate (hp_next h0) h v f (rest_of c lk) -> around c h -> (t = Ok None \/ refused h0 h) ->
  ends_by lk h0 (masa_fail c (sc_pvr c) v h) t.
Proof.
  intros c lk h0 h v f t G Hs (A1 & A2 & A3 & _) Q. apply vstate_vch in Hs. destruct Hs as (Fv & Hv & H). unfold rest_of in H.
  assert (H' : hold (hp_next h0) h (sc_F c ++ sc_Fr c ++ sc_Fp c ++ Fv ++ lk)).
  { eapply hold_perm; [|exact H]. rewrite !app_assoc. apply Permutation_app_tail. rewrite <- !app_assoc. etransitivity; [apply Permutation_app_comm|]. rewrite <- !app_assoc. reflexivity. }
  destruct (free_masa _ _ _ _ _ _ _ _ _ _ _ _ H' A1 (vch_o _ _ _ _ A2) (vch_o _ _ _ _ A3) (vch_o _ _ _ _ Hv)) as (h' & E & G' & _ & Hh & _).
  unfold masa_fail. rewrite E. eapply fail_by; [exact G|exact G'|exact Hh|exact Q].
Qed.

(** The fields of the voucher as they are when it is signed. *)
Definition masa_voucher (n : option bytes) (d : bytes) (s : bytes) (t : tm) : voucher :=
  let v := match n with None => init_voucher | Some x => put_value init_voucher ANonce (PArr x) end in
  put_value (put_value (put_value (put_value (put_value v AAssertion (PEnum 3)) APinned (PArr d)) ASerial (PStr s)) ARevocation (PBool false)) AExpiresOn (PTime t).

Lemma masa_rest : forall c lk o h0 cert key extra ce k l t cb rc pinned h v f n v0 pl,
  heap_wf h0 -> array_at h0 (cert, 0%nat) ce -> array_at h0 (key, 0%nat) k -> h_certlist h0 extra = Ok l ->
  cb (sc_s c) (sc_lst c) = (rc, pinned) -> ba_bytes (Some pinned) ->
  v0 = match n with None => init_voucher | Some x => put_value init_voucher ANonce (PArr x) end ->
  gentle (hp_next h0) h0 h -> vstate (hp_next h0) h v f (rest_of c lk) -> around c h -> agrees f v0 -> same_plain v0 pl -> f APinned = None -> f ASerial = None ->
  (forall d, (0 <= rc)%Z -> ba_has (Some pinned) d -> blen (sc_s c) < 128 -> fits (masa_voucher n d (sc_s c) t)) ->
  ends_by lk h0
    (h_set_or h v pl AAssertion (HInt 3) (masa_fail c (sc_pvr c) v) (fun pl h =>
        let (pin, h) := local h (Struct [P 0; I 0]) in
        obind (heap_string h (sc_ps c)) (fun text =>
        obind (h_certlist h (sc_l c)) (fun lc =>
        obind (h_call_back cb h text lc pin) (fun r =>
        let (rc, h) := r in
        if (rc <? 0)%Z then obind (sys_free h pin) (fun h => masa_fail c (sc_pvr c) v h)
        else
        obind (h_set_attr h v pl APinned (HArr (pin, 0%nat))) (fun r =>
        let '(rc, pl, h) := r in
        obind (h_free_binary_array_content h (pin, 0%nat)) (fun h =>
        obind (sys_free h pin) (fun h =>
        if (rc <? 0)%Z then masa_fail c (sc_pvr c) v h
        else
        h_set_or h v pl ASerial (HStr (sc_ps c)) (masa_fail c (sc_pvr c) v) (fun pl h =>
        h_set_or h v pl ARevocation (HInt 0) (masa_fail c (sc_pvr c) v) (fun pl h =>
        h_set_or h v pl AExpiresOn (HTime (Some t)) (masa_fail c (sc_pvr c) v) (fun pl h =>
        obind (h_sign_cms_voucher o h v pl cert key extra) (fun r =>
        let (cms, h) := r in
        if cms =? 0 then masa_fail c (sc_pvr c) v h
        else
        obind (free_array_list h (sc_l c)) (fun h =>
        obind (h_free_voucher h (sc_vr c)) (fun h =>
        obind (h_free_voucher h (sc_pvr c)) (fun h =>
        obind (h_free_voucher h v) (fun h =>
        Ok (cms, h)))))))))))))))))
    (set_or_fail v0 AAssertion (VInt 3) (fun v =>
                    if (rc <? 0)%Z then Ok None
                    else
                      set_or_fail v APinned (VArr (Some pinned)) (fun v =>
                      set_or_fail v ASerial (vstr (Some (sc_s c))) (fun v =>
                      set_or_fail v ARevocation (VInt 0) (fun v =>
                      set_or_fail v AExpiresOn (VTime (Some t)) (fun v =>
                      sign_cms_voucher o (Some v) ce k l)))))).
Proof.
  intros c lk o h0 cert key extra ce k l t cb rc pinned h v f n v0 pl W Ac Ak Al Ecb Bp Ev0 G Hs A Ag Sp F1 F2 Fit. set (base := hp_next h0) in *.
  assert (At : forall h b y, gentle base h0 h -> array_at h0 b y -> array_at h b y) by (intros h' b y G'; eapply array_at_kept; [exact W|reflexivity|apply G']).
  assert (FailS : forall h f h' f', gentle base h0 h -> vstate base h v f (rest_of c lk) -> around c h -> stepped base v h h' -> vstate base h' v f' (rest_of c lk) ->
    ends_by lk h0 (masa_fail c (sc_pvr c) v h') (Ok None) /\ (refused h h' -> forall t, ends_by lk h0 (masa_fail c (sc_pvr c) v h') t)).
  { intros h1 f1 h2 f2 G1 Hs1 A1 St Hs2. pose proof (around_step _ lk _ _ _ _ _ _ A1 Hs1 (incl_refl _) St) as A2. pose proof (gentle_trans _ _ _ _ G1 (proj1 St)) as G2.
    split; [eapply masa_fails; [exact G2|exact Hs2|exact A2|left; reflexivity]|]. intros Rf t'. eapply masa_fails; [exact G2|exact Hs2|exact A2|right; eapply refused_gentle; [exact G1|exact Rf]]. }
  assert (Un : forall f a b y, a <> b -> f b = None -> (upd f a y) b = (None : option bytes)) by (intros f' a b y Hab Hb; unfold upd; destruct (attr_dec a b); [contradiction|exact Hb]).
  apply (set_or_step bytes (N * heap) (ends_by lk h0) (fun m e => Logic.I) base h v f (rest_of c lk) pl v0 AAssertion (HInt 3) (VInt 3));
    [exact Hs|exact Ag|exact Sp|intros [Q|Q]; discriminate Q|reflexivity|intros h' f'; apply (FailS h f h' f' G Hs A)|].
  intros h1 pl1 p1 St1 Av1 Hs1 Ag1 Sp1. apply arg_enum in Av1. subst p1. cbn [put_f] in Hs1, Ag1. pose proof (gentle_trans _ _ _ _ G (proj1 St1)) as G1. pose proof (around_step _ lk _ _ _ _ _ _ A Hs (incl_refl _) St1) as A1.
  destruct (local h1 (Struct [P 0; I 0])) as [pin h2] eqn:El. destruct (vstate_local _ _ _ _ _ _ _ _ Hs1 El) as (Hs2 & G12 & P0 & Cp & Pv & K2). pose proof (gentle_trans _ _ _ _ G1 G12) as G2.
  assert (A2 : around c h2) by (eapply (around_frame c lk); [exact A1|intros a Ha; apply K2; apply (lk_cell _ _ _ _ _ _ Hs1 Ha)]).
  rewrite (string_at_read _ _ _ (proj1 (proj2 (proj2 (proj2 A2))))). cbn [obind]. rewrite (listed_read _ _ _ _ (vstate_wf _ _ _ _ _ Hs2) (proj1 A2)). cbn [obind].
  pose proof Hs2 as Hx. apply vstate_vch in Hx. destruct Hx as (Fv & Hv2 & Hh2). assert (Hh2' : hold base h2 (pin :: Fv ++ rest_of c lk)) by (eapply hold_perm; [|exact Hh2]; symmetry; apply Permutation_middle).
  destruct (call_ok _ _ _ _ _ _ _ _ _ Hh2' Cp Ecb Bp) as (rc' & h3 & Ec & G23 & K3 & Cs). rewrite Ec. cbn [obind]. pose proof (gentle_trans _ _ _ _ G2 G23) as G3.
  assert (Npin : forall a, In a (Fv ++ rest_of c lk) -> a <> pin) by (intros a Ha ->; destruct Hh2' as (_ & _ & D & _); apply NoDup_cons_iff in D; apply (proj1 D); exact Ha).
  assert (K3' : forall a, In a (Fv ++ rest_of c lk) -> hp_cell h3 a = hp_cell h2 a) by (intros a Ha; apply K3; [apply Npin; exact Ha|apply (hold_in _ _ _ a Hh2'); right; exact Ha]).
  assert (A3 : around c h3) by (eapply (around_frame c lk); [exact A2|intros a Ha; apply K3'; apply in_or_app; right; exact Ha]).
  assert (Hv3 : vch h3 v f Fv) by (eapply vch_frame; [exact Hv2|intros a Ha; apply K3'; apply in_or_app; left; exact Ha]).
  destruct Cs as [(Rn & Q & H3)|(Rp & Rp' & cc & Cp3 & Ap3 & H3)].
  { rewrite (proj2 (Z.ltb_lt _ _) Rn). destruct (hold_free _ _ _ _ H3) as [Ef Hf]. rewrite Ef. cbn [obind].
    assert (Kf : forall a, In a (Fv ++ rest_of c lk) -> hp_cell (put h3 pin Freed) a = hp_cell h3 a) by (intros a Ha; apply put_other; apply Npin; exact Ha).
    eapply masa_fails.
    - eapply gentle_trans; [exact G3|]. eapply gentle_put; [exact H3|left; reflexivity].
    - apply vstate_vch. exists Fv. split; [|exact Hf]. eapply vch_frame; [exact Hv3|intros a Ha; apply Kf; apply in_or_app; left; exact Ha].
    - eapply (around_frame c lk); [exact A3|intros a Ha; apply Kf; apply in_or_app; right; exact Ha].
    - destruct Q as [Q|Q]; [left; rewrite (proj2 (Z.ltb_lt _ _) Q); reflexivity|right]. eapply refused_later; [eapply refused_gentle; [exact G2|exact Q]|cbn; lia]. }
  rewrite (proj2 (Z.ltb_ge _ _) Rp), (proj2 (Z.ltb_ge _ _) Rp').
  rewrite (pin_as_set h3 v pl1 (HArr (pin, 0%nat)) pin (masa_fail c (sc_pvr c) v) (fun pl h => h_set_or h v pl ASerial (HStr (sc_ps c)) _ _)).
  assert (Hs3 : vstate base h3 v f ((pin :: nz cc) ++ rest_of c lk)).
  { apply vstate_vch. exists Fv. split; [exact Hv3|]. eapply hold_perm; [|exact H3]. change (pin :: nz cc ++ Fv ++ rest_of c lk) with ((pin :: nz cc) ++ Fv ++ rest_of c lk). apply Permutation_app_swap_app. }
  assert (Inc : incl (rest_of c lk) ((pin :: nz cc) ++ rest_of c lk)) by (intros a Ha; apply in_or_app; right; exact Ha).
  assert (Free : forall h f', stepped base v h3 h -> vstate base h v f' ((pin :: nz cc) ++ rest_of c lk) -> exists h', gentle base h3 h' /\ hp_next h' = hp_next h /\ vstate base h' v f' (rest_of c lk) /\ around c h' /\
    forall B (k : heap -> outcome B), obind (h_free_binary_array_content h (pin, 0%nat)) (fun h => obind (sys_free h pin) k) = k h').
  { intros h4 f4 St4 Hs4. pose proof (around_step _ lk _ _ _ _ _ _ A3 Hs3 Inc St4) as A4. apply vstate_vch in Hs4. destruct Hs4 as (Fv4 & Hv4 & Hh4).
    assert (Hh4' : hold base h4 (pin :: nz cc ++ Fv4 ++ rest_of c lk)) by (eapply hold_perm; [|exact Hh4]; change (pin :: nz cc ++ Fv4 ++ rest_of c lk) with ((pin :: nz cc) ++ Fv4 ++ rest_of c lk); apply Permutation_app_swap_app).
    assert (Cp4 : hp_cell h4 pin = Live (Struct [P cc; I (Z.of_N (ba_len pinned))])) by (rewrite (proj2 St4); [exact Cp3|exact Pv|eexists; exact Cp3]).
    destruct (free_pin _ _ _ _ _ _ Hh4' Cp4) as (h5 & h6 & E5 & E6 & G6 & N6 & H6 & K6). exists h6. split; [eapply gentle_trans; [exact (proj1 St4)|exact G6]|]. split; [exact N6|].
    assert (K6' : forall a, In a (Fv4 ++ rest_of c lk) -> hp_cell h6 a = hp_cell h4 a) by (intros a Ha; apply K6; apply (hold_in _ _ _ a H6 Ha)).
    split; [apply vstate_vch; exists Fv4; split; [eapply vch_frame; [exact Hv4|intros a Ha; apply K6'; apply in_or_app; left; exact Ha]|exact H6]|].
    split; [eapply (around_frame c lk); [exact A4|intros a Ha; apply K6'; apply in_or_app; right; exact Ha]|]. intros B k'. rewrite E5. cbn [obind]. rewrite E6. reflexivity. }
  apply (set_or_step bytes (N * heap) (ends_by lk h0) (fun m e => Logic.I) base h3 v f ((pin :: nz cc) ++ rest_of c lk) pl1 _ APinned (HArr (pin, 0%nat)) (VArr (Some pinned)));
    [exact Hs3|exact Ag1|exact Sp1|intros _; exact F1|split; [exact Ap3|exact Pv]| |].
  { intros h4 f4 St4 Hs4. destruct (Free _ _ St4 Hs4) as (h5 & G5 & N5 & Hs5 & A5 & E5). rewrite E5. pose proof (gentle_trans _ _ _ _ G3 G5) as G05.
    split; [eapply masa_fails; [exact G05|exact Hs5|exact A5|left; reflexivity]|]. intros Rf t'. eapply masa_fails; [exact G05|exact Hs5|exact A5|right]. eapply refused_later; [eapply refused_gentle; [exact G3|exact Rf]|lia]. }
  intros h4 pl4 p4 St4 Av4 Hs4 Ag4 Sp4. apply arg_arr in Av4. destruct Av4 as (d & Hd & ->). cbn [put_f] in Hs4, Ag4. destruct (Free _ _ St4 Hs4) as (h5 & G5 & N5 & Hs5 & A5 & E5). rewrite E5. clear E5. pose proof (gentle_trans _ _ _ _ G3 G5) as G05. clear Free.
  apply (set_or_step bytes (N * heap) (ends_by lk h0) (fun m e => Logic.I) base h5 v (upd f APinned (Some d)) (rest_of c lk) pl4 _ ASerial (HStr (sc_ps c)) (vstr (Some (sc_s c))));
    [exact Hs5|exact Ag4|exact Sp4|intros _; apply Un; [discriminate|exact F2]|exists (Some (sc_s c)); split; [apply A5|reflexivity]|intros h' f'; apply (FailS h5 _ h' f' G05 Hs5 A5)|].
  intros h6 pl6 p6 St6 Av6 Hs6 Ag6 Sp6. apply arg_str in Av6; [|intros y Hy; assert (y = sc_s c) as -> by congruence; destruct A5 as (_ & _ & _ & (_ & Ct & _) & _); apply cstr_no0; exact Ct]. destruct Av6 as (s' & Es & Hl & ->). assert (s' = sc_s c) as -> by congruence. cbn [put_f] in Hs6, Ag6.
  pose proof (gentle_trans _ _ _ _ G05 (proj1 St6)) as G6. pose proof (around_step _ lk _ _ _ _ _ _ A5 Hs5 (incl_refl _) St6) as A6.
  apply (set_or_step bytes (N * heap) (ends_by lk h0) (fun m e => Logic.I) base h6 v (upd (upd f APinned (Some d)) ASerial (Some (sc_s c))) (rest_of c lk) pl6 _ ARevocation (HInt 0) (VInt 0));
    [exact Hs6|exact Ag6|exact Sp6|intros [Q|Q]; discriminate Q|reflexivity|intros h' f'; apply (FailS h6 _ h' f' G6 Hs6 A6)|].
  intros h7 pl7 p7 St7 Av7 Hs7 Ag7 Sp7. apply arg_bool in Av7. subst p7. cbn [put_f] in Hs7, Ag7. pose proof (gentle_trans _ _ _ _ G6 (proj1 St7)) as G7. pose proof (around_step _ lk _ _ _ _ _ _ A6 Hs6 (incl_refl _) St7) as A7.
  apply (set_or_step bytes (N * heap) (ends_by lk h0) (fun m e => Logic.I) base h7 v (upd (upd f APinned (Some d)) ASerial (Some (sc_s c))) (rest_of c lk) pl7 _ AExpiresOn (HTime (Some t)) (VTime (Some t)));
    [exact Hs7|exact Ag7|exact Sp7|intros [Q|Q]; discriminate Q|reflexivity|intros h' f'; apply (FailS h7 _ h' f' G7 Hs7 A7)|].
  intros h8 pl8 p8 St8 Av8 Hs8 Ag8 Sp8. apply arg_time in Av8. destruct Av8 as (t' & Et & ->). assert (t' = t) as -> by congruence. cbn [put_f] in Hs8, Ag8. pose proof (gentle_trans _ _ _ _ G7 (proj1 St8)) as G8. pose proof (around_step _ lk _ _ _ _ _ _ A7 Hs7 (incl_refl _) St8) as A8.
  destruct (sign_cms_voucher o _ ce k l) as [r|e] eqn:Er; [|exact Logic.I].
  assert (Ft : fits (put_value (put_value (put_value (put_value (put_value v0 AAssertion (PEnum 3)) APinned (PArr d)) ASerial (PStr (sc_s c))) ARevocation (PBool (negb (0 =? 0)%Z))) AExpiresOn (PTime t))) by (subst v0; exact (Fit d Rp' Hd Hl)).
  pose proof (sign_cases o base h8 v _ (rest_of c lk) pl8 _ cert key extra ce k l r Hs8 Ag8 Sp8 Ft (At _ _ _ G8 Ac) (At _ _ _ G8 Ak) (ext_certlist _ _ _ _ W (ext_of _ _ (vstate_wf _ _ _ _ _ Hs8) G8) Al) Er) as Y.
  destruct (h_sign_cms_voucher o h8 v pl8 cert key extra) as [[cm' h9]|e]; cbn [obind].
  2:{ destruct Y as [-> Y]. split; [reflexivity|]. eapply starved_before; [| |exact Y]; apply G8. }
  destruct Y as (G89 & K9 & Y). pose proof (gentle_trans _ _ _ _ G8 G89) as G9. assert (A9 : around c h9) by (eapply (around_frame c lk); [exact A8|intros a Ha; apply K9; apply (lk_cell _ _ _ _ _ _ Hs8 Ha)]).
  destruct Y as [(-> & Hs9 & Q)|(C0 & dd & b & -> & An & Hs9)].
  - cbn [N.eqb]. eapply masa_fails; [exact G9|exact Hs9|exact A9|]. destruct Q as [->|Q]; [left; reflexivity|right; eapply refused_gentle; [exact G8|exact Q]].
  - rewrite (proj2 (N.eqb_neq _ _) C0). apply vstate_vch in Hs9. destruct Hs9 as (Fv9 & Hv9 & Hh9). destruct A9 as (B1 & B2 & B3 & _). unfold rest_of in Hh9.
    assert (Hh9' : hold base h9 (sc_F c ++ sc_Fr c ++ sc_Fp c ++ Fv9 ++ (cm' :: nz b) ++ lk)).
    { eapply hold_perm; [|exact Hh9]. apply perm5. }
    destruct (free_masa _ _ _ _ _ _ _ _ _ _ _ _ Hh9' B1 (vch_o _ _ _ _ B2) (vch_o _ _ _ _ B3) (vch_o _ _ _ _ Hv9)) as (hb & Eb & Gb & Hnb & Hb & Kb). rewrite Eb.
    cbn [ends_by gotten]. split; [apply ext_of; [eapply hold_wf; exact Hb|eapply gentle_trans; eassumption]|]. right. exists dd, b. split; [reflexivity|]. split; [|exact Hb].
    eapply arr_new_frame; [exact An|]. intros a Ha. apply Kb. apply (hold_in _ _ _ a Hb). apply in_or_app. left. destruct Ha as [->|Ha]; [left; reflexivity|right; exact Ha].
Qed.
