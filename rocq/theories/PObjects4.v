(** Proofs about OpenSSL objects: signing and the parts of verifying. *)
From Verif Require Import Base PBase MBase64 MSerialize MOs MVoucher MCrypto MObjects SObjects PObjects PObjects2 PObjects3.
Open Scope nat_scope.

(** ** Signing *)
Lemma bio_step : forall l0 s L d r s', bl l0 s L -> bio_to_ptr s d = (r, s') -> keeps s s' L /\
  match r with
  | None => bl l0 s' L /\ ~ steady s
  | Some b => bl l0 s' (ol b ++ L) /\ (b = None <-> d = []) /\ (forall x, b = Some x -> view s' x = Some (KBuf, []) /\ ob_next s <= x)
  end.
Proof.
  intros l0 s L d r s' B E. unfold bio_to_ptr in E. destruct d as [|c d].
  - injection E as <- <-. split; [apply keeps_refl|]. split; [exact B|]. split; [tauto|discriminate].
  - destruct (ob_new s KBuf) as [p s1] eqn:E1. destruct (new_step _ _ _ _ _ _ B E1) as [K [(-> & B1 & R)|(-> & B1 & V & R)]]; injection E as <- <-; (split; [exact K|]).
    + split; [exact B1|]. intros ST. specialize (ST (ob_next s)). lia.
    + split; [exact B1|]. split; [split; discriminate|]. intros x Q. injection Q as <-. auto.
Qed.
Definition out_view (s : objs) (b : option nat) : Prop := forall x, b = Some x -> view s x = Some (KBuf, []).
Lemma out_view_keeps : forall s s' L b, out_view s b -> keeps s s' L -> (forall x, b = Some x -> In x L) -> out_view s' b.
Proof. intros s s' L b V K I x Q. rewrite (proj2 (proj2 K)); [apply V, Q|apply I, Q]. Qed.
Lemma derbuf_step : forall o l0 c s L, bl l0 s L -> exists r s', cms_to_derbuf o c s = Ok (r, s') /\ keeps s s' L /\
  match r with None => bl l0 s' L | Some (d, b) => bl l0 s' (ol b ++ L) /\ (b = None <-> d = []) /\ out_view s' b end /\ (steady s -> option_map fst r = i2d_cms o c).
Proof.
  intros o l0 c s L B. unfold cms_to_derbuf. destruct (ob_new s KBio) as [p s1] eqn:E1. pose proof (keeps_refl s L) as K0. destruct (new_step _ _ _ _ _ _ B E1) as [K [(-> & B1 & R)|(-> & B1 & V & R)]]; carry K.
  - exists None, s1. split; [reflexivity|]. split; [exact K0|]. split; [exact B1|]. intros ST. specialize (ST (ob_next s)). lia.
  - destruct (i2d_cms o c) as [d|].
    + destruct (bio_to_ptr s1 d) as [b s2] eqn:E2. destruct (bio_step _ _ _ _ _ _ B1 E2) as [K M]. pose proof (steady_keeps _ _ _ K0) as S1. carry K. destruct b as [b|].
      * destruct M as (B2 & BD & VB). destruct (free_in l0 s2 _ (ol b ++ L) (ob_next s) KBio [] B2 ltac:(cnts) V) as (s3 & E3 & B3 & K). rewrite E3. cbn [obind]. exists (Some (d, b)), s3. split; [reflexivity|].
        split; [refine (keeps_trans _ _ _ _ K0 (keeps_incl _ _ _ _ K _)); intros y I; isin|]. split; [|reflexivity]. split; [exact B3|]. split; [exact BD|]. eapply out_view_keeps; [intros x Q; exact (proj1 (VB x Q))|exact K|]. intros x Q. subst b. isin.
      * destruct M as [B2 NS]. destruct (free_in l0 s2 _ L (ob_next s) KBio [] B2 ltac:(cnts) V) as (s3 & E3 & B3 & K). carry K. rewrite E3. cbn [obind]. exists None, s3. split; [reflexivity|]. split; [exact K0|]. split; [exact B3|]. intros ST. destruct (NS (S1 ST)).
    + destruct (free_in l0 s1 _ L (ob_next s) KBio [] B1 ltac:(cnts) V) as (s3 & E3 & B3 & K). carry K. rewrite E3. cbn [obind]. exists None, s3. split; [reflexivity|]. split; [exact K0|]. split; [exact B3|]. reflexivity.
Qed.
Lemma parse_views : forall A (v : option A) s k p s', parse k v s = (p, s') -> forall y k' l, view s y = Some (k', l) -> view s' y = Some (k', l).
Proof.
  intros A v s k p s' E y k' l V. unfold parse in E. destruct v as [a|]; [|injection E as <- <-; exact V]. destruct (ob_new s k) as [q s1] eqn:E1. destruct q; injection E as <- <-; eapply new_views; eauto.
Qed.
Lemma cms_signed_step : forall o l0 s L cert cv key kv stack sv data kc lc kk lk, bl l0 s L -> In cert L -> view s cert = Some (kc, lc) -> level kc < 2 -> In key L -> view s key = Some (kk, lk) -> level kk < 2 ->
  (forall x, stack = Some x -> In x L /\ exists l, view s x = Some (KStack, l)) ->
  exists r s', cms_signed o s cert cv key kv stack sv data = Ok (r, s') /\ keeps s s' L /\
    match r with None => bl l0 s' L | Some (_, x) => bl l0 s' (x :: L) /\ exists l, view s' x = Some (KCms, l) end /\ (steady s -> option_map fst r = cms_sign o cv kv sv data).
Proof.
  intros o l0 s L cert cv key kv stack sv data kc lc kk lk B IC VC LC IK VK LK HS. unfold cms_signed. pose proof (held_by_below l0 s L stack KStack B HS eq_refl) as FB.
  destruct (parse KCms (cms_sign o cv kv sv data) s) as [p s1] eqn:E1. pose proof (parse_views _ _ _ _ _ _ E1) as PV. destruct (parse_step _ _ _ _ _ _ _ _ B E1) as [K P]. destruct p as [[c x]|].
  - destruct P as (EV & B1 & VX). rewrite EV.
    destruct (share_in l0 s1 _ L x (key :: cert :: cert :: held_by s stack) KCms [] B1 ltac:(cnts) VX) as (s2 & E2 & B2 & V2 & K2).
    { eapply Forall_impl; [intros y; exact (below_keeps l0 s s1 2 y PV)|]. pose proof (held_below l0 s L cert kc lc 2 B IC VC LC). pose proof (held_below l0 s L key kk lk 2 B IK VK LK). auto. }
    rewrite E2. cbn [obind]. exists (Some (c, x)), s2. split; [reflexivity|]. split; [exact (keeps_trans _ _ _ _ K K2)|]. split; [eauto|reflexivity].
  - destruct P as [B1 P]. exists None, s1. split; [reflexivity|]. split; [exact K|]. split; [exact B1|]. intros ST. rewrite (P ST). reflexivity.
Qed.
Lemma opt_view_keeps : forall s s' L p k, (forall x, p = Some x -> exists l, view s x = Some (k, l)) -> keeps s s' L -> (forall x, p = Some x -> In x L) -> forall x, p = Some x -> exists l, view s' x = Some (k, l).
Proof. intros s s' L p k V K I x Q. destruct (V x Q) as [l VX]. exists l. rewrite (proj2 (proj2 K)); auto. Qed.
Lemma withkey_step : forall o l0 data cert kv key certs s L kk lk, bl l0 s L -> In key L -> view s key = Some (kk, lk) -> level kk < 2 ->
  exists r s' lost, sign_withkey o data cert kv key certs s = Ok (r, s') /\ keeps s s' L /\
    match r with None => bl l0 s' (lost ++ L) | Some (d, b) => bl l0 s' (ol b ++ lost ++ L) /\ (b = None <-> d = []) /\ out_view s' b end /\
    (steady s -> lost = [] /\ option_map fst r = sign_withkey_cms o data cert kv certs).
Proof.
  intros o l0 data cert kv key certs s L kk lk B IK VK LK. unfold sign_withkey, sign_withkey_cms. destruct (ob_new s KBio) as [p s1] eqn:E1. pose proof (keeps_refl s L) as K0. destruct (new_step _ _ _ _ _ _ B E1) as [K [(-> & B1 & R)|(-> & B1 & VM & R)]]; carry K.
  { exists None, s1, []. split; [reflexivity|]. split; [exact K0|]. split; [exact B1|]. intros ST. specialize (ST (ob_next s)). lia. }
  set (mem := ob_next s) in *. destruct (ob_call s1) as [w s2] eqn:E2. destruct (call_step _ _ _ _ _ B1 E2) as (K & B2 & W). pose proof (steady_keeps _ _ _ K0) as S1. carry K.
  destruct (Z.ltb_spec w 0) as [WN|WN].
  { destruct (free_in l0 s2 _ L mem KBio [] B2 ltac:(cnts) VM) as (s3 & E3 & B3 & K). carry K. rewrite E3. cbn [obind]. exists None, s3, []. split; [reflexivity|]. split; [exact K0|]. split; [exact B3|]. intros ST. specialize (S1 ST (ob_next s1)). lia. }
  destruct (parse KCert (d2i_x509 o cert) s2) as [p s3] eqn:E3. destruct (parse_step _ _ _ _ _ _ _ _ B2 E3) as [K P]. pose proof (steady_keeps _ _ _ K0) as S2. carry K. destruct p as [[cv x]|].
  2:{ destruct P as [B3 P]. destruct (free_in l0 s3 _ L mem KBio [] B3 ltac:(cnts) VM) as (s4 & E4 & B4 & K). carry K. rewrite E4. cbn [obind]. exists None, s4, []. split; [reflexivity|]. split; [exact K0|]. split; [exact B4|]. intros ST. rewrite (P (S2 ST)). auto. }
  destruct P as (-> & B3 & VX). destruct (opt_get_stack_step o l0 certs s3 _ B3) as (r & s4 & lost & E4 & K & M & S). pose proof (steady_keeps _ _ _ K0) as S3. carry K. rewrite E4. cbn [obind]. destruct r as [[sv stack]|].
  2:{ destruct (free_in l0 s4 _ (lost ++ mem :: L) x KCert [] M ltac:(cnts) VX) as (s5 & E5 & B5 & K). carry K. rewrite E5. cbn [obind]. destruct (free_in l0 s5 _ (lost ++ L) mem KBio [] B5 ltac:(cnts) VM) as (s6 & E6 & B6 & K). carry K. rewrite E6. cbn [obind].
      exists None, s6, lost. split; [reflexivity|]. split; [exact K0|]. split; [exact B6|]. intros ST. destruct (S (S3 ST)) as [-> Q]. split; [reflexivity|]. rewrite <- Q. reflexivity. }
  destruct M as (B4 & _ & VS). assert (VS4 : forall y, stack = Some y -> exists l, view s4 y = Some (KStack, l)) by (intros y Q; destruct (VS y Q) as (l & V & _); eauto). clear VS.
  assert (IX : In x (ol stack ++ lost ++ x :: mem :: L)) by isin. assert (IK2 : In key (ol stack ++ lost ++ x :: mem :: L)) by isin.
  destruct (cms_signed_step o l0 s4 _ x cv key kv stack sv data KCert [] kk lk B4 IX VX ltac:(cbn [level]; lia) IK2 VK LK) as (cr & s5 & E5 & K & M & Q5). { intros y Q. split; [subst stack; isin|auto]. }
  pose proof (steady_keeps _ _ _ K0) as S4. pose proof (opt_view_keeps _ _ _ stack KStack VS4 K ltac:(intros y Q; subst stack; isin)) as VS5. carry K. rewrite E5. cbn [obind].
  set (cp := match cr with Some (_, c) => Some c | None => None end).
  assert (B5 : bl l0 s5 (ol cp ++ ol stack ++ lost ++ x :: mem :: L)) by (destruct cr as [[? ?]|]; [exact (proj1 M)|exact M]).
  assert (VP5 : forall y, cp = Some y -> exists l, view s5 y = Some (KCms, l)) by (intros y Q; destruct cr as [[? ?]|]; [injection Q as <-; exact (proj2 M)|discriminate Q]). clear M.
  assert (X : exists out s6, match cr with None => Ok (None, s5) | Some (c, _) => cms_to_derbuf o c s5 end = Ok (out, s6) /\ keeps s5 s6 (ol cp ++ ol stack ++ lost ++ x :: mem :: L) /\
     match out with None => bl l0 s6 (ol cp ++ ol stack ++ lost ++ x :: mem :: L) | Some (d, b) => bl l0 s6 (ol b ++ ol cp ++ ol stack ++ lost ++ x :: mem :: L) /\ (b = None <-> d = []) /\ out_view s6 b end /\
     (steady s5 -> option_map fst out = match cr with None => None | Some (c, _) => i2d_cms o c end)).
  { destruct cr as [[c cx]|]; [apply derbuf_step; exact B5|]. exists None, s5. split; [reflexivity|]. split; [apply keeps_refl|]. split; [exact B5|reflexivity]. }
  destruct X as (out & s6 & E6 & K & M & Q6). pose proof (steady_keeps _ _ _ K0) as S5. pose proof (opt_view_keeps _ _ _ stack KStack VS5 K ltac:(intros y Q; subst stack; isin)) as VS6. pose proof (opt_view_keeps _ _ _ cp KCms VP5 K ltac:(intros y Q; rewrite Q; isin)) as VP6. carry K. rewrite E6. cbn [obind].
  set (b := match out with Some (_, b) => b | None => None end).
  assert (B6 : bl l0 s6 (ol b ++ ol cp ++ ol stack ++ lost ++ x :: mem :: L)) by (destruct out as [[? ?]|]; [exact (proj1 M)|exact M]).
  assert (VB6 : out_view s6 b) by (destruct out as [[? ?]|]; [exact (proj2 (proj2 M))|discriminate]).
  assert (BD : forall d b', out = Some (d, b') -> (b' = None <-> d = [])) by (intros d b' Q; subst out; exact (proj1 (proj2 M))). clear M.
  destruct (free_in l0 s6 _ (ol b ++ ol cp ++ ol stack ++ lost ++ mem :: L) x KCert [] B6 ltac:(cnts) VX) as (s7 & E7 & B7 & K). rewrite E7. cbn [obind].
  pose proof (opt_view_keeps _ _ _ stack KStack VS6 K ltac:(intros y Q; subst stack; isin)) as VS7. pose proof (opt_view_keeps _ _ _ cp KCms VP6 K ltac:(intros y Q; rewrite Q; isin)) as VP7. pose proof (out_view_keeps _ _ _ b VB6 K ltac:(intros y Q; rewrite Q; isin)) as VB7. carry K.
  destruct (free_opt l0 s7 _ (ol b ++ ol cp ++ lost ++ mem :: L) stack KStack B7 ltac:(cnts) VS7) as (s8 & E8 & B8 & K). rewrite E8. cbn [obind].
  pose proof (opt_view_keeps _ _ _ cp KCms VP7 K ltac:(intros y Q; rewrite Q; isin)) as VP8. pose proof (out_view_keeps _ _ _ b VB7 K ltac:(intros y Q; rewrite Q; isin)) as VB8. carry K.
  destruct (free_in l0 s8 _ (ol b ++ ol cp ++ lost ++ L) mem KBio [] B8 ltac:(cnts) VM) as (s9 & E9 & B9 & K). rewrite E9. cbn [obind].
  pose proof (opt_view_keeps _ _ _ cp KCms VP8 K ltac:(intros y Q; rewrite Q; isin)) as VP9. pose proof (out_view_keeps _ _ _ b VB8 K ltac:(intros y Q; rewrite Q; isin)) as VB9. carry K.
  destruct (free_opt l0 s9 _ (ol b ++ lost ++ L) cp KCms B9 ltac:(cnts) VP9) as (s10 & E10 & B10 & K). rewrite E10. cbn [obind].
  pose proof (out_view_keeps _ _ _ b VB9 K ltac:(intros y Q; rewrite Q; isin)) as VB10. carry K.
  exists out, s10, lost. split; [reflexivity|]. split; [exact K0|]. split; [destruct out as [[d b']|]; [split; [exact B10|]; split; [exact (BD _ _ eq_refl)|exact VB10]|exact B10]|].
  intros ST. destruct (S (S3 ST)) as [-> Q]. split; [reflexivity|]. rewrite <- Q. cbn [option_map fst]. rewrite <- (Q5 (S4 ST)). rewrite (Q6 (S5 ST)). destruct cr as [[? ?]|]; reflexivity.
Qed.
Theorem sign_step : forall o l0 k data cert key certs s L cb kb, ba_read cert = Ok cb -> ba_read key = Ok kb -> bl l0 s L ->
  exists r s' lost, sign_cms o k data cert key certs s = Ok (r, s') /\ keeps s s' L /\
    match r with None => bl l0 s' (lost ++ L) | Some (d, b) => bl l0 s' (ol b ++ lost ++ L) /\ (b = None <-> d = []) /\ out_view s' b end /\
    (steady s -> lost = [] /\ crypto_sign o k data cert key certs = Ok (option_map fst r)).
Proof.
  intros o l0 k data cert key certs s L cb kb RC RK B. unfold sign_cms, crypto_sign. pose proof (keeps_refl s L) as K0.
  destruct (ba_data cert) as [cd|]; [|eexists None, s, []; auto 6]. destruct (ba_data key) as [kd|]; [|eexists None, s, []; auto 6]. rewrite RC, RK. cbn [obind].
  destruct (parse KKey (d2i_by o k kb) s) as [p s1] eqn:E1. destruct (parse_step _ _ _ _ _ _ _ _ B E1) as [K P]. carry K. destruct p as [[kv x]|].
  2:{ destruct P as [B1 P]. exists None, s1, []. split; [reflexivity|]. split; [exact K0|]. split; [exact B1|]. intros ST. rewrite (P ST). auto. }
  destruct P as (-> & B1 & VX). destruct (withkey_step o l0 data cb kv x certs s1 (x :: L) KKey [] B1 ltac:(left; reflexivity) VX ltac:(cbn [level]; lia)) as (r & s2 & lost & E2 & K & M & S). pose proof (steady_keeps _ _ _ K0) as S1. carry K. rewrite E2. cbn [obind].
  set (b := match r with Some (_, b) => b | None => None end).
  assert (B2 : bl l0 s2 (ol b ++ lost ++ x :: L)) by (destruct r as [[? ?]|]; [exact (proj1 M)|exact M]).
  assert (VB : out_view s2 b) by (destruct r as [[? ?]|]; [exact (proj2 (proj2 M))|discriminate]).
  destruct (free_in l0 s2 _ (ol b ++ lost ++ L) x KKey [] B2 ltac:(cnts) VX) as (s3 & E3 & B3 & K). rewrite E3. cbn [obind]. pose proof (out_view_keeps _ _ _ b VB K ltac:(intros y Q; rewrite Q; isin)) as VB3. carry K.
  exists r, s3, lost. split; [reflexivity|]. split; [exact K0|]. split; [destruct r as [[d b']|]; [split; [exact B3|]; split; [exact (proj1 (proj2 M))|exact VB3]|exact B3]|].
  intros ST. destruct (S (S1 ST)) as [-> Q]. rewrite Q. auto.
Qed.
