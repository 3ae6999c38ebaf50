(** Files are closed and objects released by the functions of MObjectFiles. *)
From Verif Require Import Base PBase MBase64 MSerialize MOs MVoucher MCrypto MObjects MObjectFiles SObjects PObjects PObjects2 PObjects3 PObjects4 PObjects5 PObjects6 PObjects7 PObjects8.
Open Scope nat_scope.

(** The buffer stays the array's when another object is released. *)
Lemma free_key : forall s1 s L0 x k l arr b s', bl (ob_list s1) s L0 -> (forall y, cnt L0 y = cnt (x :: [arr]) y) -> view s x = Some (k, l) -> view s arr = Some (KList, [b]) -> view s b = Some (KBuf, []) ->
  free k s (Some x) = Ok s' -> leaves_key s1 s' (Some arr).
Proof.
  intros s1 s L0 x k l arr b s' B C VX VA VB E. pose proof (bl_cnt _ _ _ _ B C) as B'. destruct (free_in _ s _ [arr] x k l B C VX) as (s2 & E2 & B2 & K). rewrite E in E2. injection E2 as <-.
  assert (V9 : view s' arr = Some (KList, [b])) by (rewrite (proj2 (proj2 K)); [exact VA|left; reflexivity]). apply (bl_key s1 s' arr b B2 V9).
  pose proof (kids_below _ s' [arr] arr KList [b] B2 ltac:(left; reflexivity) V9) as KB. destruct (Forall_inv KB) as [_ (kb & lb & VB9 & _)]. rewrite VB9.
  assert (LS : less s s'). { destruct B' as (BB & FF & _). pose proof (Forall_inv FF) as LPK. destruct (free_bal _ s _ k (Some x) s' BB ltac:(intros y Q; injection Q as <-; assumption) E) as [_ LS]. exact LS. }
  destruct (view_at _ _ _ _ VB9) as [rb EB9]. destruct LS as (_ & _ & AA). destruct (AA _ _ _ _ EB9) as [rb' EB8]. unfold view in VB. rewrite EB8 in VB. exact VB.
Qed.
Lemma bl_empty : forall s s' x, bl (ob_list s) s' [x] -> view s' x = Some (KList, []) -> leaves_empty s s' x.
Proof.
  intros s s' x BL VX. pose proof BL as (B & F & ND). split; [eapply bl_apart; exact BL|]. pose proof (Forall_inv F) as LX. cbv beta in LX. fold (ob_next s) in LX. destruct (view_at _ _ _ _ VX) as [rx EX].
  assert (ALL : forall y k r l, ob_next s <= y -> ob_at s' y = Alive k r l -> y = x).
  { intros y k r l L E. destruct (rooted _ _ _ B 2 y k r l ltac:(lia) L E) as (t & G & LT & RT). apply cnt_In in G. destruct G as [<-|[]].
    assert (Q : forall a b, reach s' a b -> kids (ob_at s' a) = [] -> b = a) by (clear; intros a b H; induction H as [|x y z H IH I]; [reflexivity|]; intros Q; rewrite (IH Q), Q in I; destruct I). apply Q; [exact RT|rewrite EX; reflexivity]. }
  pose proof (bal_refs _ _ _ B x LX) as RX. rewrite EX in RX. cbn [refs] in RX. rewrite cnt_cons, cnt_nil, Nat.eqb_refl in RX.
  assert (H0 : (holders (skipn (List.length (ob_list s)) (ob_list s')) x = 0)%Z). { destruct (Z.eq_dec (holders (skipn (List.length (ob_list s)) (ob_list s')) x) 0) as [Q|Q]; [exact Q|]. pose proof (holders_pos (skipn (List.length (ob_list s)) (ob_list s')) x). destruct (held_kid _ _ _ x B ltac:(lia)) as (z & LZ & IZ). destruct (ob_at s' z) as [kz rz lz|] eqn:EZ; [|destruct IZ]. rewrite (ALL z _ _ _ LZ EZ), EX in EZ. injection EZ as <- <- <-. destruct IZ. }
  split; [exact LX|]. rewrite EX. assert (rx = 1) by lia. subst rx. split; [reflexivity|]. intros y LY N. destruct (ob_at s' y) as [k r l|] eqn:EY; [|reflexivity]. destruct (N (ALL y _ _ _ LY EY)).
Qed.

Theorem file_to_buf_exact : forall k pem s, exists r s', file_to_buf k pem s = Ok (r, s') /\ leaves_key s s' r /\ (steady s -> (r <> None <-> pem = true)).
Proof.
  intros k pem s. unfold file_to_buf. pose proof (bl_start s) as B. pose proof (keeps_refl s []) as K0.
  assert (END : forall s', bl (ob_list s) s' [] -> leaves_key s s' None) by (intros s' B'; apply bl_leaves; [exact B'|constructor]).
  destruct (ob_new s KFile) as [p s1] eqn:E1. destruct (new_step _ _ _ _ _ _ B E1) as [K [(-> & B1 & R)|(-> & B1 & VF & R)]]; carry K.
  { exists None, s1. split; [reflexivity|]. split; [exact (END _ B1)|]. intros ST. specialize (ST (ob_next s)). lia. }
  remember (ob_next s) as fp eqn:HF. destruct (parse k (if pem then Some tt else None) s1) as [p s2] eqn:E2. destruct (parse_step _ _ _ _ _ _ _ _ B1 E2) as [K P]. pose proof (steady_keeps _ _ _ K0) as T1. carry K. destruct p as [[u x]|].
  2:{ destruct P as [B2 P]. destruct (free_in _ s2 _ [] fp KFile [] B2 ltac:(cnts) VF) as (s3 & E3 & B3 & K). rewrite E3. cbn [obind]. exists None, s3. split; [reflexivity|]. split; [exact (END _ B3)|]. intros ST. specialize (P (T1 ST)). destruct pem; [discriminate P|]. split; [intros []; reflexivity|discriminate]. }
  destruct P as (EP & B2 & VX). assert (PT : pem = true) by (destruct pem; [reflexivity|discriminate EP]).
  destruct (free_in _ s2 _ [x] fp KFile [] B2 ltac:(cnts) VF) as (s3 & E3 & B3 & K). clear VF. pose proof (keeps_refl s []) as K1. carry K. rewrite E3. cbn [obind].
  destruct (ob_new s3 KList) as [p s4] eqn:E4. pose proof (steady_keeps _ _ _ K0) as T3. destruct (new_step _ _ _ _ _ _ B3 E4) as [K [(-> & B4 & R4)|(-> & B4 & VA & R4)]]; carry K.
  { destruct (free_in _ s4 _ [] x k [] B4 ltac:(cnts) VX) as (s5 & E5 & B5 & K). rewrite E5. cbn [obind]. exists None, s5. split; [reflexivity|]. split; [exact (END _ B5)|]. intros ST. specialize (T3 ST (ob_next s3)). lia. }
  remember (ob_next s3) as arr eqn:HA. destruct (ob_new s4 KBuf) as [p s5] eqn:E5. pose proof (steady_keeps _ _ _ K0) as T4. destruct (new_step _ _ _ _ _ _ B4 E5) as [K [(-> & B5 & R5)|(-> & B5 & VB & R5)]]; carry K.
  { destruct (free_in _ s5 _ [arr] x k [] B5 ltac:(cnts) VX) as (s6 & E6 & B6 & K). carry K. rewrite E6. cbn [obind]. destruct (free_in _ s6 _ [] arr KList [] B6 ltac:(cnts) VA) as (s7 & E7 & B7 & K). rewrite E7. cbn [obind]. exists None, s7. split; [reflexivity|]. split; [exact (END _ B7)|]. intros ST. specialize (T4 ST (ob_next s4)). lia. }
  remember (ob_next s4) as b eqn:HB. assert (NBX : b <> x) by (intros Q; destruct (bl_notin _ _ _ _ B5); rewrite Q; right; left; reflexivity). assert (NBA : b <> arr) by (intros Q; destruct (bl_notin _ _ _ _ B5); rewrite Q; left; reflexivity).
  assert (NXA : x <> arr) by (intros Q; destruct (bl_notin _ _ _ _ B4); rewrite <- Q; left; reflexivity).
  destruct (hold_step _ s5 [arr; x] arr b KList [] KBuf [] B5 ltac:(left; reflexivity) VA VB ltac:(cbn [level]; lia)) as (s6 & E6 & B6 & V6 & A6 & _). rewrite E6. cbn [obind app] in *.
  assert (VX6 : view s6 x = Some (k, [])) by (rewrite A6; [exact VX|exact NXA]). assert (VB6 : view s6 b = Some (KBuf, [])) by (rewrite A6; [exact VB|exact NBA]).
  destruct (free_in _ s6 _ [arr] x k [] B6 ltac:(cnts) VX6) as (s7 & E7 & B7 & K). rewrite E7. cbn [obind]. exists (Some arr), s7. split; [reflexivity|]. split; [|intros _; split; [intros _; exact PT|discriminate]].
  exact (free_key s s6 _ x k [] arr b s7 B6 ltac:(cnts) VX6 V6 VB6 E7).
Qed.
Theorem buf_to_file_exact : forall k der s, exists z s', buf_to_file k der s = Ok (z, s') /\ leaves s s' [] /\ (z = 0%Z \/ z = (-1)%Z) /\ (z = 0%Z -> der = true) /\ (steady s -> der = true -> z = 0%Z).
Proof.
  intros k der s. unfold buf_to_file. pose proof (bl_start s) as B. pose proof (keeps_refl s []) as K0.
  assert (END : forall s', bl (ob_list s) s' [] -> leaves s s' []) by (intros s' B'; apply bl_leaves; [exact B'|constructor]).
  destruct (ob_new s KFile) as [p s1] eqn:E1. destruct (new_step _ _ _ _ _ _ B E1) as [K [(-> & B1 & R)|(-> & B1 & VF & R)]]; carry K.
  { exists (-1)%Z, s1. split; [reflexivity|]. split; [exact (END _ B1)|]. split; [auto|]. split; [discriminate|]. intros ST. specialize (ST (ob_next s)). lia. }
  remember (ob_next s) as fp eqn:HF. destruct (parse k (if der then Some tt else None) s1) as [p s2] eqn:E2. destruct (parse_step _ _ _ _ _ _ _ _ B1 E2) as [K P]. pose proof (steady_keeps _ _ _ K0) as T1. carry K. destruct p as [[u x]|].
  2:{ destruct P as [B2 P]. destruct (free_in _ s2 _ [] fp KFile [] B2 ltac:(cnts) VF) as (s3 & E3 & B3 & K). rewrite E3. cbn [obind]. exists (-1)%Z, s3. split; [reflexivity|]. split; [exact (END _ B3)|]. split; [auto|]. split; [discriminate|]. intros ST ->. discriminate (P (T1 ST)). }
  destruct P as (EP & B2 & VX). assert (PT : der = true) by (destruct der; [reflexivity|discriminate EP]).
  destruct (ob_call s2) as [z s3] eqn:E3. destruct (call_step _ _ _ _ _ B2 E3) as (K & B3 & Z). pose proof (steady_keeps _ _ _ K0) as T2. carry K.
  destruct (free_in _ s3 _ [x] fp KFile [] B3 ltac:(cnts) VF) as (s4 & E4 & B4 & K). clear VF. carry K. rewrite E4. cbn [obind].
  destruct (free_in _ s4 _ [] x k [] B4 ltac:(cnts) VX) as (s5 & E5 & B5 & K). rewrite E5. cbn [obind]. eexists; eexists. split; [reflexivity|]. split; [exact (END _ B5)|]. split; [destruct (z <=? 0)%Z; auto|]. split; [auto|].
  intros ST _. specialize (T2 ST (ob_next s2)). destruct (Z.leb_spec z 0); [lia|reflexivity].
Qed.
Theorem cms_to_file_exact : forall o (inn : inner o) v s, exists z s', cmsbuf_to_file inn v s = Ok (z, s') /\ leaves s s' [] /\ (z = 0%Z \/ z = (-1)%Z) /\ (z = 0%Z -> v <> None) /\ (steady s -> v <> None -> z = 0%Z).
Proof.
  intros o inn v s. unfold cmsbuf_to_file. pose proof (bl_start s) as B. pose proof (keeps_refl s []) as K0.
  assert (END : forall s', bl (ob_list s) s' [] -> leaves s s' []) by (intros s' B'; apply bl_leaves; [exact B'|constructor]).
  destruct (parse_cms_step o inn (ob_list s) v s [] B) as (p & s1 & E1 & K & P). carry K. rewrite E1. cbn [obind]. destruct p as [[c x]|].
  2:{ destruct P as [B1 P]. exists (-1)%Z, s1. split; [reflexivity|]. split; [exact (END _ B1)|]. split; [auto|]. split; [discriminate|]. intros ST N. destruct (N (P ST)). }
  destruct P as (EV & B1 & ids & VX & _). destruct (ob_new s1 KBio) as [p s2] eqn:E2. pose proof (steady_keeps _ _ _ K0) as T1. destruct (new_step _ _ _ _ _ _ B1 E2) as [K [(-> & B2 & R)|(-> & B2 & VF & R)]]; carry K.
  { destruct (free_in _ s2 _ [] x KCms ids B2 ltac:(cnts) VX) as (s3 & E3 & B3 & K). rewrite E3. cbn [obind]. exists (-1)%Z, s3. split; [reflexivity|]. split; [exact (END _ B3)|]. split; [auto|]. split; [discriminate|]. intros ST. specialize (T1 ST (ob_next s1)). lia. }
  remember (ob_next s1) as fp eqn:HF. destruct (ob_call s2) as [z s3] eqn:E3. destruct (call_step _ _ _ _ _ B2 E3) as (K & B3 & Z). pose proof (steady_keeps _ _ _ K0) as T2. carry K.
  destruct (free_in _ s3 _ [x] fp KBio [] B3 ltac:(cnts) VF) as (s4 & E4 & B4 & K). clear VF. carry K. rewrite E4. cbn [obind].
  destruct (free_in _ s4 _ [] x KCms ids B4 ltac:(cnts) VX) as (s5 & E5 & B5 & K). rewrite E5. cbn [obind]. eexists; eexists. split; [reflexivity|]. split; [exact (END _ B5)|]. split; [destruct (z <=? 0)%Z; auto|]. split; [rewrite EV; discriminate|].
  intros ST _. specialize (T2 ST (ob_next s2)). destruct (Z.leb_spec z 0); [lia|reflexivity].
Qed.

(** The certificate is the caller's. *)
Theorem cert2buf_exact : forall cert k r l s, ob_at s cert = Alive k r l -> exists res s', cert2buf cert s = Ok (res, s') /\ leaves_key s s' res /\ (steady s -> res <> None).
Proof.
  intros cert k r l s AL. unfold cert2buf. pose proof (bl_start s) as B. pose proof (keeps_refl s []) as K0. pose proof (alive_lt _ _ _ _ _ AL) as LT.
  assert (END : forall s', bl (ob_list s) s' [] -> leaves_key s s' None) by (intros s' B'; apply bl_leaves; [exact B'|constructor]).
  destruct (ob_new s KList) as [p s1] eqn:E1. destruct (new_step _ _ _ _ _ _ B E1) as [K [(-> & B1 & R)|(-> & B1 & VA & R)]]; carry K.
  { exists None, s1. split; [reflexivity|]. split; [exact (END _ B1)|]. intros ST. specialize (ST (ob_next s)). lia. }
  rewrite (bl_apart _ _ _ B1 cert LT), AL. remember (ob_next s) as arr eqn:HA. destruct (ob_new s1 KBuf) as [p s2] eqn:E2. pose proof (steady_keeps _ _ _ K0) as T1. destruct (new_step _ _ _ _ _ _ B1 E2) as [K [(-> & B2 & R2)|(-> & B2 & VB & R2)]]; carry K.
  { destruct (free_in _ s2 _ [] arr KList [] B2 ltac:(cnts) VA) as (s3 & E3 & B3 & K). rewrite E3. cbn [obind]. exists None, s3. split; [reflexivity|]. split; [exact (END _ B3)|]. intros ST. specialize (T1 ST (ob_next s1)). lia. }
  remember (ob_next s1) as b eqn:HB. assert (NBA : b <> arr) by (intros Q; destruct (bl_notin _ _ _ _ B2); rewrite Q; left; reflexivity).
  destruct (hold_step _ s2 [arr] arr b KList [] KBuf [] B2 ltac:(left; reflexivity) VA VB ltac:(cbn [level]; lia)) as (s3 & E3 & B3 & V3 & A3 & _). rewrite E3. cbn [obind app] in *.
  exists (Some arr), s3. split; [reflexivity|]. split; [|discriminate]. apply (bl_key s s3 arr b B3 V3). rewrite A3; [exact VB|exact NBA].
Qed.
Theorem issuer_exact : forall cert text k r l s, ob_at s cert = Alive k r l -> exists res s', getcert_issuer cert text s = Ok (res, s') /\
  match res with Some x => (text <> [] -> leaves_key s s' (Some x)) /\ (text = [] -> leaves_empty s s' x) | None => leaves s s' [] end /\ (steady s -> res <> None).
Proof.
  intros cert text k r l s AL. unfold getcert_issuer. rewrite AL. pose proof (bl_start s) as B. pose proof (keeps_refl s []) as K0.
  assert (END : forall s', bl (ob_list s) s' [] -> leaves s s' []) by (intros s' B'; apply bl_leaves; [exact B'|constructor]).
  destruct (ob_new s KBio) as [p s1] eqn:E1. destruct (new_step _ _ _ _ _ _ B E1) as [K [(-> & B1 & R)|(-> & B1 & VM & R)]]; carry K.
  { exists None, s1. split; [reflexivity|]. split; [exact (END _ B1)|]. intros ST. specialize (ST (ob_next s)). lia. }
  remember (ob_next s) as mem eqn:HM. destruct (ob_call s1) as [z s2] eqn:E2. destruct (call_step _ _ _ _ _ B1 E2) as (K & B2 & Z). pose proof (steady_keeps _ _ _ K0) as T1. carry K. destruct (Z.ltb_spec z 0) as [QZ|QZ].
  { destruct (free_in _ s2 _ [] mem KBio [] B2 ltac:(cnts) VM) as (s3 & E3 & B3 & K). rewrite E3. cbn [obind]. exists None, s3. split; [reflexivity|]. split; [exact (END _ B3)|]. intros ST. specialize (T1 ST (ob_next s1)). lia. }
  destruct (ob_new s2 KList) as [p s3] eqn:E3. pose proof (steady_keeps _ _ _ K0) as T2. destruct (new_step _ _ _ _ _ _ B2 E3) as [K [(-> & B3 & R3)|(-> & B3 & VA & R3)]]; carry K.
  { destruct (free_in _ s3 _ [] mem KBio [] B3 ltac:(cnts) VM) as (s4 & E4 & B4 & K). rewrite E4. cbn [obind]. exists None, s4. split; [reflexivity|]. split; [exact (END _ B4)|]. intros ST. specialize (T2 ST (ob_next s2)). lia. }
  remember (ob_next s2) as arr eqn:HA. destruct (bio_to_ptr s3 text) as [p s4] eqn:E4. pose proof (steady_keeps _ _ _ K0) as T3. destruct (bio_step _ _ _ _ _ _ B3 E4) as [K P]. carry K. destruct p as [b|].
  2:{ destruct P as [B4 NS]. destruct (free_in _ s4 _ [arr] mem KBio [] B4 ltac:(cnts) VM) as (s5 & E5 & B5 & K). clear VM. carry K. rewrite E5. cbn [obind]. destruct (free_in _ s5 _ [] arr KList [] B5 ltac:(cnts) VA) as (s6 & E6 & B6 & K). rewrite E6. cbn [obind]. exists None, s6. split; [reflexivity|]. split; [exact (END _ B6)|]. intros ST. destruct (NS (T3 ST)). }
  destruct P as (B4 & BN & VB). destruct b as [b|]; cbn [ol app] in B4.
  - destruct (VB b eq_refl) as [VB4 _]. destruct (free_in _ s4 _ [b; arr] mem KBio [] B4 ltac:(cnts) VM) as (s5 & E5 & B5 & K). clear VM VB. carry K. rewrite E5. cbn [obind]. assert (NBA : b <> arr) by (intros Q; destruct (bl_notin _ _ _ _ B5); rewrite Q; left; reflexivity).
    destruct (hold_step _ s5 [arr] arr b KList [] KBuf [] B5 ltac:(left; reflexivity) VA VB4 ltac:(cbn [level]; lia)) as (s6 & E6 & B6 & V6 & A6 & _). rewrite E6. cbn [obind app] in *.
    exists (Some arr), s6. split; [reflexivity|]. split; [|discriminate]. split; [|intros Q; apply BN in Q; discriminate Q]. intros _. apply (bl_key s s6 arr b B6 V6). rewrite A6; [exact VB4|exact NBA].
  - destruct (free_in _ s4 _ [arr] mem KBio [] B4 ltac:(cnts) VM) as (s5 & E5 & B5 & K). clear VM. carry K. rewrite E5. cbn [obind]. exists (Some arr), s5. split; [reflexivity|]. split; [|discriminate]. split; [intros N; destruct (N (proj1 BN eq_refl))|]. intros _. apply bl_empty; assumption.
Qed.
