(** Proofs about OpenSSL objects: verifying a message. *)
From Verif Require Import Base PBase MBase64 MSerialize MOs MVoucher MCrypto MObjects SObjects PObjects PObjects2 PObjects3 PObjects4.
Open Scope nat_scope.

(** ** What is left *)
Lemma bl_leaves : forall s s' R, bl (ob_list s) s' R -> Forall (fun x => view s' x = Some (KBuf, [])) R -> leaves s s' R.
Proof.
  intros s s' R (B & F & ND) V. split.
  - intros x L. destruct (bal_old _ _ _ B) as [l1 E]. unfold ob_at. rewrite E. apply app_nth1. exact L.
  - rewrite Forall_forall in V. assert (ROOT : forall y k r l, ob_next s <= y -> ob_at s' y = Alive k r l -> In y R).
    { intros y k r l L E. destruct (rooted _ _ _ B 2 y k r l ltac:(lia) L E) as (t & G & LT & RT). apply cnt_In in G. assert (KT : kids (ob_at s' t) = []) by (pose proof (V t G) as VT; destruct (view_at _ _ _ _ VT) as [r' ->]; reflexivity).
      assert (Q : forall a b, reach s' a b -> kids (ob_at s' a) = [] -> b = a) by (clear; intros a b H; induction H as [|x y z H IH I]; [reflexivity|]; intros Q; rewrite (IH Q), Q in I; destruct I). rewrite (Q _ _ RT KT). exact G. }
    intros x L. destruct (existsb (Nat.eqb x) R) eqn:EX.
    + apply existsb_exists in EX as (y & I & Q). apply Nat.eqb_eq in Q. subst y. destruct (view_at _ _ _ _ (V x I)) as [r E]. rewrite E. f_equal.
      pose proof (bal_refs _ _ _ B x L) as RX. rewrite E in RX. cbn [refs] in RX. assert (H0 : (holders (skipn (List.length (ob_list s)) (ob_list s')) x < 1)%Z).
      { apply Z.nle_gt. intros H. destruct (held_kid _ _ _ _ B H) as (z & LZ & IZ). destruct (ob_at s' z) as [k rz lz|] eqn:EZ; [|destruct IZ]. pose proof (V z (ROOT z _ _ _ LZ EZ)) as VZ. unfold view in VZ. rewrite EZ in VZ. injection VZ as -> ->. destruct IZ. }
      pose proof (holders_pos (skipn (List.length (ob_list s)) (ob_list s')) x). assert (C : cnt R x = 1%Z). { apply cnt_In in I as C1. rewrite (NoDup_count_occ Nat.eq_dec) in ND. specialize (ND x). unfold cnt in *. lia. } lia.
    + destruct (ob_at s' x) as [k r l|] eqn:E; [|reflexivity]. pose proof (ROOT x _ _ _ L E) as I. assert (Q : existsb (Nat.eqb x) R = true) by (apply existsb_exists; exists x; split; [exact I|apply Nat.eqb_refl]). congruence.
Qed.
Lemma bl_apart : forall s s' R, bl (ob_list s) s' R -> apart s s'.
Proof. intros s s' R (B & _ & _) x L. destruct (bal_old _ _ _ B) as [l1 E]. unfold ob_at. rewrite E. apply app_nth1. exact L. Qed.

(** ** The message *)
Lemma add_certs_step : forall l0 n s L c ids, bl l0 s (c :: L) -> view s c = Some (KCms, ids) ->
  exists s' ids', add_certs n s c = Ok s' /\ bl l0 s' (c :: L) /\ keeps s s' L /\ view s' c = Some (KCms, ids') /\ List.length ids' = List.length ids + n.
Proof.
  intros l0. induction n as [|n IH]; intros s L c ids B V; cbn [add_certs].
  - exists s, ids. split; [reflexivity|]. split; [exact B|]. split; [apply keeps_refl|]. split; [exact V|lia].
  - pose proof (keeps_refl s L) as K0. destruct (alive_step l0 s (c :: L) KCert B) as [B1 VX]. pose proof (add_keeps l0 s (c :: L) (Alive KCert 1 []) B) as K. remember (ob_next s) as x eqn:EX. carry K.
    destruct (hold_in l0 _ _ L c x KCms ids KCert [] B1 ltac:(cnts) V VX ltac:(cbn [level]; lia)) as (s2 & E2 & B2 & V2 & K). rewrite E2. cbn [obind]. carry K.
    destruct (IH s2 L c (ids ++ [x]) B2 V2) as (s3 & ids' & E3 & B3 & K & V3 & LE). carry K. exists s3, ids'. split; [exact E3|]. split; [exact B3|]. split; [exact K0|]. split; [exact V3|]. rewrite app_length in LE. cbn [List.length] in LE. lia.
Qed.
Lemma parse_cms_step : forall o (inn : inner o) l0 v s L, bl l0 s L -> exists r s', parse_cms inn v s = Ok (r, s') /\ keeps s s' L /\
  match r with
  | None => bl l0 s' L /\ (steady s -> v = None)
  | Some (c, x) => v = Some c /\ bl l0 s' (x :: L) /\ exists ids, view s' x = Some (KCms, ids) /\ List.length ids = in_certs inn c
  end.
Proof.
  intros o inn l0 v s L B. unfold parse_cms. destruct (parse KCms v s) as [p s1] eqn:E1. destruct (parse_step _ _ _ _ _ _ _ _ B E1) as [K P]. destruct p as [[c x]|].
  - destruct P as (EV & B1 & VX). destruct (add_certs_step l0 (in_certs inn c) s1 L x [] B1 VX) as (s2 & ids & E2 & B2 & K2 & V2 & LE). rewrite E2. cbn [obind]. exists (Some (c, x)), s2. split; [reflexivity|]. split; [exact (keeps_trans _ _ _ _ K K2)|]. split; [exact EV|]. split; [exact B2|eauto].
  - exists None, s1. auto.
Qed.

(** ** Leaving *)
Definition leave {A} (mem stack : option nat) (content : nat) (store ptrs : option nat) (a : A) (s : objs) : outcome (A * objs) :=
  obind (free KBio s mem) (fun s => obind (free KStack s stack) (fun s => obind (free KCms s (Some content)) (fun s => obind (free_x509_store s store ptrs) (fun s => Ok (a, s))))).
Lemma leave_step : forall A l0 s L0 L mem stack content store ptrs (a : A) cs, bl l0 s L0 -> (forall y, cnt L0 y = cnt (ol mem ++ ol stack ++ content :: ol store ++ ol ptrs ++ L) y) ->
  (forall x, mem = Some x -> exists l, view s x = Some (KBio, l)) -> (forall x, stack = Some x -> exists l, view s x = Some (KStack, l)) -> view s content = Some (KCms, cs) ->
  (forall x, store = Some x -> exists l, view s x = Some (KStore, l)) -> (forall x, ptrs = Some x -> exists l, view s x = Some (KPtrs, l)) ->
  exists s', leave mem stack content store ptrs a s = Ok (a, s') /\ keeps s s' L /\ bl l0 s' L.
Proof.
  intros A l0 s L0 L mem stack content store ptrs a cs B C VM VS VC VT VP. unfold leave. pose proof (keeps_refl s L) as K0.
  destruct (free_opt l0 s L0 _ mem KBio B C VM) as (s1 & E1 & B1 & K). rewrite E1. cbn [obind].
  pose proof (opt_view_keeps _ _ _ stack KStack VS K ltac:(intros y Q; subst stack; isin)) as VS1. pose proof (opt_view_keeps _ _ _ store KStore VT K ltac:(intros y Q; subst store; isin)) as VT1. pose proof (opt_view_keeps _ _ _ ptrs KPtrs VP K ltac:(intros y Q; subst ptrs; isin)) as VP1. carry K.
  destruct (free_opt l0 s1 _ _ stack KStack B1 ltac:(reflexivity) VS1) as (s2 & E2 & B2 & K). rewrite E2. cbn [obind].
  pose proof (opt_view_keeps _ _ _ store KStore VT1 K ltac:(intros y Q; subst store; isin)) as VT2. pose proof (opt_view_keeps _ _ _ ptrs KPtrs VP1 K ltac:(intros y Q; subst ptrs; isin)) as VP2. carry K.
  destruct (free_in l0 s2 _ _ content KCms cs B2 ltac:(reflexivity) VC) as (s3 & E3 & B3 & K). rewrite E3. cbn [obind].
  pose proof (opt_view_keeps _ _ _ store KStore VT2 K ltac:(intros y Q; subst store; isin)) as VT3. pose proof (opt_view_keeps _ _ _ ptrs KPtrs VP2 K ltac:(intros y Q; subst ptrs; isin)) as VP3. carry K.
  destruct (free_store_step l0 s3 _ L store ptrs B3 ltac:(reflexivity) VT3 VP3) as (s4 & E4 & B4 & K). carry K. rewrite E4. cbn [obind]. eauto.
Qed.

(** ** Up to the extraction of the certificates *)
Definition rest (o : ossl) (c : CMS o) (sv : option (list (X509 o))) (want : bool) (data : option (bytes * nat)) (signers : list nat) (mem stack : option nat) (content : nat) (store ptrs : option nat) (s : objs)
  : outcome (option (option (bytes * nat) * option (certlist * nat)) * objs) :=
  if want then
    obind (exatract o (cms_signers o c sv) signers s) (fun '(r, s) =>
    match r with
    | None => leave mem stack content store ptrs None s
    | Some l => leave mem stack content store ptrs (Some (data, l)) s
    end)
  else leave mem stack content store ptrs (Some (data, None)) s.
Definition fst_id (p : option (bytes * nat)) : option nat := option_map snd p.
Lemma picked_some : forall o (inn : inner o) c sv ids ms p, in_range inn c sv p -> List.length ms = in_certs inn c -> (forall l, sv = Some l -> List.length ids = List.length l) -> picked [] ids [] ms p <> [].
Proof.
  intros o inn c sv ids ms p R LM LI. assert (Q : forall n (l : list nat), n < List.length l -> firstn 1 (skipn n l) <> []). { intros n l L E. pose proof (skipn_length n l) as SL. destruct (skipn n l); [cbn [List.length] in SL; lia|discriminate E]. }
  destruct p; cbn [in_range] in R; cbn [picked]; [contradiction| |contradiction|]; apply Q.
  - destruct sv as [l|]; [rewrite (LI l eq_refl); exact R|contradiction].
  - lia.
Qed.
Lemma views_keep : forall l0 s s' L n x, keeps s s' L -> (forall y, ob_next s <= y \/ view s' y = view s y) -> below s l0 n x -> below s' l0 n x.
Proof. intros l0 s s' L n x K H [LX (k & l & V & LV)]. split; [exact LX|]. exists k, l. destruct (H x) as [Q|Q]; [|rewrite Q; auto]. destruct (view_at _ _ _ _ V) as [r E]. pose proof (alive_lt _ _ _ _ _ E). lia. Qed.
Lemma verify_prefix : forall o (inn : inner o) l0 cms certs store s L d, ba_read cms = Ok d -> bl l0 s L ->
  (exists s' lost, (forall want, verify_cms o inn cms certs store want s = Ok (None, s')) /\ keeps s s' L /\ bl l0 s' (lost ++ L) /\
     (steady s -> forall want, crypto_verify_cms o cms certs store want = Ok None) /\ (steady s -> ~ reaches o d certs store) /\ (steady s -> takes o -> lost = [])) \/
  exists c sv tv text data signers mem stack content st ptrs s1 lost cs,
    (forall want, verify_cms o inn cms certs store want s = rest o c sv want data signers (Some mem) stack content st ptrs s1) /\ keeps s s1 L /\
    bl l0 s1 (ol (fst_id data) ++ mem :: ol stack ++ content :: ol st ++ ol ptrs ++ lost ++ L) /\ (steady s -> lost = []) /\
    view s1 mem = Some (KBio, []) /\ (forall x, stack = Some x -> exists l, view s1 x = Some (KStack, l)) /\ view s1 content = Some (KCms, cs) /\
    (forall x, st = Some x -> exists l, view s1 x = Some (KStore, l)) /\ (forall x, ptrs = Some x -> exists l, view s1 x = Some (KPtrs, l)) /\
    out_view s1 (fst_id data) /\ option_map fst data = match text with [] => None | _ => Some text end /\
    Forall (below s1 l0 2) signers /\ (forall x y, fst_id data = Some x -> In y signers -> y < x) /\
    (coherent inn -> forall xs, cms_signers o c sv = Some xs -> (signers = [] <-> xs = [])) /\
    (steady s -> d2i_cms o d = Some c /\ opt_stack o certs = Some sv /\ opt_store o store = Some tv /\ cms_verify o c sv tv (match tv with None => true | Some _ => false end) = Some text).
Proof.
  intros o inn l0 cms certs store s L d RD B. unfold verify_cms, crypto_verify_cms. rewrite RD. cbn [obind]. pose proof (keeps_refl s L) as K0.
  destruct (parse_cms_step o inn l0 (d2i_cms o d) s L B) as (p & s1 & E1 & K & P). rewrite E1. cbn [obind]. carry K. destruct p as [[c content]|].
  2:{ left. destruct P as [B1 P]. exists s1, []. split; [reflexivity|]. split; [exact K0|]. split; [exact B1|]. split; [intros ST want; rewrite (P ST); reflexivity|]. split; [intros ST (? & ? & ? & ? & ? & ? & Q & _); rewrite (P ST) in Q; discriminate Q|auto]. }
  destruct P as (EC & B1 & cs & VC & LC). destruct (opt_get_stack_step o l0 certs s1 _ B1) as (r & s2 & lost1 & E2 & K & M & S). pose proof (steady_keeps _ _ _ K0) as S1. rewrite E2. cbn [obind]. carry K. destruct r as [[sv stack]|].
  2:{ left. destruct (free_in l0 s2 _ (lost1 ++ L) content KCms cs M ltac:(cnts) VC) as (s3 & E3 & B3 & K). carry K. rewrite E3. cbn [obind]. exists s3, lost1. split; [reflexivity|]. split; [exact K0|]. split; [exact B3|]. rewrite EC. split; [intros ST want; destruct (S (S1 ST)) as [_ Q]; rewrite <- Q; reflexivity|].
      split; [intros ST (? & ? & ? & ? & ? & ? & _ & Q2 & _); destruct (S (S1 ST)) as [_ Q]; rewrite Q2 in Q; discriminate Q|intros ST _; apply (S (S1 ST))]. }
  destruct M as (B2 & SN & VS). destruct (opt_get_store_step o inn l0 store s2 _ B2) as (r & s3 & lost2 & E3 & K & M & Q1 & Q2). pose proof (steady_keeps _ _ _ K0) as S2. rewrite E3. cbn [obind].
  assert (VS3 : forall x, stack = Some x -> exists ids, view s3 x = Some (KStack, ids) /\ forall l, sv = Some l -> List.length ids = List.length l) by (intros x Q; destruct (VS x Q) as (ids & V & LI); exists ids; split; [rewrite (proj2 (proj2 K)); [exact V|subst stack; isin]|exact LI]). clear VS.
  carry K. destruct r as [[[tv st] ptrs]|].
  2:{ left. destruct (free_opt l0 s3 _ (content :: lost2 ++ lost1 ++ L) stack KStack M ltac:(cnts)) as (s4 & E4 & B4 & K). { intros x Q. destruct (VS3 x Q) as (ids & V & _). eauto. } carry K. rewrite E4. cbn [obind].
      destruct (free_in l0 s4 _ (lost2 ++ lost1 ++ L) content KCms cs B4 ltac:(cnts) VC) as (s5 & E5 & B5 & K). carry K. rewrite E5. cbn [obind]. exists s5, (lost2 ++ lost1). split; [reflexivity|]. split; [exact K0|]. split; [rot B5|]. rewrite EC.
      split; [intros ST want; destruct (S (S1 ST)) as [_ Q]; rewrite <- Q; cbn [option_map fst]; rewrite <- (Q1 (S2 ST)); reflexivity|].
      split; [intros ST (? & ? & ? & ? & ? & ? & _ & _ & Q & _); pose proof (Q1 (S2 ST)) as Q'; rewrite Q in Q'; discriminate Q'|intros ST T; rewrite (Q2 (S2 ST) (or_intror T)), (proj1 (S (S1 ST))); reflexivity]. }
  destruct M as (B3 & VT & VP). assert (LOST : steady s -> lost2 ++ lost1 = []) by (intros ST; rewrite (Q2 (S2 ST) ltac:(left; discriminate)), (proj1 (S (S1 ST))); reflexivity).
  assert (FUN : steady s -> opt_stack o certs = Some sv /\ opt_store o store = Some tv) by (intros ST; rewrite <- (proj2 (S (S1 ST))), <- (Q1 (S2 ST)); auto).
  destruct (ob_new s3 KBio) as [p s4] eqn:E4. pose proof (steady_keeps _ _ _ K0) as S3.
  destruct (new_step _ _ _ _ _ _ B3 E4) as [K N].
  assert (VS4 : forall x, stack = Some x -> exists ids, view s4 x = Some (KStack, ids) /\ forall l, sv = Some l -> List.length ids = List.length l) by (intros x Q; destruct (VS3 x Q) as (ids & V & LI); exists ids; split; [rewrite (proj2 (proj2 K)); [exact V|subst stack; isin]|exact LI]). clear VS3.
  pose proof (opt_view_keeps _ _ _ st KStore VT K ltac:(intros y Q; subst st; isin)) as VT4. pose proof (opt_view_keeps _ _ _ ptrs KPtrs VP K ltac:(intros y Q; subst ptrs; isin)) as VP4. clear VT VP. carry K.
  assert (VS4' : forall x, stack = Some x -> exists l, view s4 x = Some (KStack, l)) by (intros x Q; destruct (VS4 x Q) as (l & V & _); eauto).
  destruct N as [(-> & B4 & R4)|(-> & B4 & VM & R4)].
  { left. destruct (leave_step (option (option (bytes * nat) * option (certlist * nat))) l0 s4 _ (lost2 ++ lost1 ++ L) None stack content st ptrs None cs B4 ltac:(cnts) ltac:(discriminate) VS4' VC VT4 VP4) as (s5 & E5 & K & B5). carry K.
    exists s5, (lost2 ++ lost1). split; [intros _; exact E5|]. split; [exact K0|]. split; [rot B5|]. split; [|split]; intros ST; specialize (S3 ST (ob_next s3)); lia. }
  set (mem := ob_next s3) in *. set (signers := flat_map (picked [] (held_by s4 stack) [] (held_by s4 (Some content))) (in_signers inn c sv)).
  assert (FB : Forall (below s4 l0 2) signers).
  { apply Forall_forall. intros y I. apply in_flat_map in I as (q & _ & I). apply picked_in in I as [[]|[I|[[]|I]]]; refine (proj1 (Forall_forall _ _) _ y I).
    - eapply (held_by_below l0 s4 _ stack KStack B4); [|reflexivity]. intros x Q. split; [subst stack; isin|auto].
    - eapply (held_by_below l0 s4 _ (Some content) KCms B4); [|reflexivity]. intros x Q. injection Q as <-. split; [isin|eauto]. }
  assert (NE : coherent inn -> forall xs, cms_signers o c sv = Some xs -> (signers = [] <-> xs = [])).
  { intros CO xs Q. destruct (CO c sv) as [RG LN]. specialize (LN xs Q). unfold signers. split; intros HN.
    - destruct xs as [|x xs]; [reflexivity|]. exfalso. destruct (in_signers inn c sv) as [|q qs] eqn:EQ; [discriminate LN|]. inversion RG as [|? ? RQ _]; subst. cbn [flat_map] in HN. apply app_eq_nil in HN as [HN _].
      refine (picked_some o inn c sv _ _ q RQ _ _ HN).
      + cbn [held_by]. destruct (view_at _ _ _ _ VC) as [rc ->]. exact LC.
      + intros l Ql. destruct stack as [x0|]; [|destruct SN as [_ SN]; rewrite (SN eq_refl) in Ql; discriminate Ql]. destruct (VS4 x0 eq_refl) as (ids & V & LI). cbn [held_by]. destruct (view_at _ _ _ _ V) as [rx ->]. exact (LI l Ql).
    - subst xs. destruct (in_signers inn c sv); [reflexivity|discriminate LN]. }
  destruct (share_in l0 s4 _ (mem :: ol stack ++ ol st ++ ol ptrs ++ lost2 ++ lost1 ++ L) content signers KCms cs B4 ltac:(cnts) VC FB) as (s5 & E5 & B5 & VC5 & K).
  assert (FB5 : Forall (below s5 l0 2) signers). 
  { destruct (share_step l0 signers s4 (content :: mem :: ol stack ++ ol st ++ ol ptrs ++ lost2 ++ lost1 ++ L) content KCms cs) as (s5' & E5' & _ & _ & A5 & _); [rot B4|left; reflexivity|exact VC|exact FB|]. rewrite E5 in E5'. injection E5' as <-.
    eapply Forall_impl; [|exact FB]. intros y [LY (ky & ly & VY & LV)]. split; [exact LY|]. exists ky, ly. split; [|exact LV]. rewrite A5; [exact VY|]. intros ->. rewrite VC in VY. injection VY as <- <-. cbn [level] in LV. lia. }
  pose proof (opt_view_keeps _ _ _ stack KStack VS4' K ltac:(intros y Q; subst stack; isin)) as VS5. pose proof (opt_view_keeps _ _ _ st KStore VT4 K ltac:(intros y Q; subst st; isin)) as VT5. pose proof (opt_view_keeps _ _ _ ptrs KPtrs VP4 K ltac:(intros y Q; subst ptrs; isin)) as VP5.
  assert (VM5 : view s5 mem = Some (KBio, [])) by (rewrite (proj2 (proj2 K)); [exact VM|isin]). pose proof (steady_keeps _ _ _ K0) as S4. clear VS4 VS4' VT4 VP4 VC. carry K. rewrite E5. cbn [obind]. rewrite EC.
  assert (VM5' : forall x, Some mem = Some x -> exists l, view s5 x = Some (KBio, l)) by (intros x Q; injection Q as <-; eauto).
  destruct (cms_verify o c sv tv match tv with Some _ => false | None => true end) as [text|] eqn:EV.
  2:{ left. destruct (leave_step (option (option (bytes * nat) * option (certlist * nat))) l0 s5 _ (lost2 ++ lost1 ++ L) (Some mem) stack content st ptrs None _ B5 ltac:(cnts) VM5' VS5 VC5 VT5 VP5) as (s6 & E6 & K & B6). carry K.
      exists s6, (lost2 ++ lost1). split; [intros _; exact E6|]. split; [exact K0|]. split; [rot B6|]. split; [intros ST want; destruct (FUN ST) as [-> ->]; rewrite EV; reflexivity|]. split.
      - intros ST (c' & sv' & tv' & text & x & xs & QC & QS & QT & QV & _). destruct (FUN ST) as [FS FT]. rewrite FS in QS. rewrite FT in QT. injection QS as <-. injection QT as <-. rewrite EC in QC. injection QC as <-. rewrite EV in QV. discriminate QV.
      - intros ST _. exact (LOST ST). }
  destruct (bio_to_ptr s5 text) as [b s6] eqn:E6. destruct (bio_step _ _ _ _ _ _ B5 E6) as [K M]. pose proof (steady_keeps _ _ _ K0) as S5.
  pose proof (opt_view_keeps _ _ _ stack KStack VS5 K ltac:(intros y Q; subst stack; isin)) as VS6. pose proof (opt_view_keeps _ _ _ st KStore VT5 K ltac:(intros y Q; subst st; isin)) as VT6. pose proof (opt_view_keeps _ _ _ ptrs KPtrs VP5 K ltac:(intros y Q; subst ptrs; isin)) as VP6. clear VS5 VT5 VP5 VM5'. 
  assert (LT5 : forall y, In y signers -> y < ob_next s5) by (intros y I; rewrite Forall_forall in FB5; destruct (FB5 y I) as [_ (ky & ly & VY & _)]; destruct (view_at _ _ _ _ VY) as [ry EY]; eapply alive_lt; exact EY).
  assert (FB6 : Forall (below s6 l0 2) signers).
  { eapply Forall_impl; [|exact FB5]. intros y. apply below_keeps. unfold bio_to_ptr in E6. destruct text; [injection E6 as <- <-; auto|]. destruct (ob_new s5 KBuf) as [p s6'] eqn:EN. pose proof (new_views _ _ _ _ EN) as NV. destruct p; injection E6 as <- <-; exact NV. }
  carry K. assert (VM6' : forall x, Some mem = Some x -> exists l, view s6 x = Some (KBio, l)) by (intros x Q; injection Q as <-; eauto).
  destruct b as [b|].
  2:{ left. destruct M as [B6 NS]. destruct (leave_step (option (option (bytes * nat) * option (certlist * nat))) l0 s6 _ (lost2 ++ lost1 ++ L) (Some mem) stack content st ptrs None _ B6 ltac:(cnts) VM6' VS6 VC5 VT6 VP6) as (s7 & E7 & K & B7). carry K.
      exists s7, (lost2 ++ lost1). split; [intros _; exact E7|]. split; [exact K0|]. split; [rot B7|]. split; [|split]; intros ST; destruct (NS (S5 ST)). }
  right. destruct M as (B6 & BD & VB). set (data := match b with None => None | Some b => Some (text, b) end). assert (FD : fst_id data = b) by (destruct b; reflexivity).
  exists c, sv, tv, text, data, signers, mem, stack, content, st, ptrs, s6, (lost2 ++ lost1), (cs ++ signers). split; [intros want; destruct b; reflexivity|]. split; [exact K0|]. rewrite FD. split; [rot B6|]. split; [exact LOST|]. split; [exact VM5|]. split; [exact VS6|]. split; [exact VC5|]. split; [exact VT6|]. split; [exact VP6|].
  split; [intros x Q; apply VB, Q|]. split. { unfold data. destruct b as [b|]; cbn [option_map fst]; [destruct text; [destruct BD as [_ BD]; discriminate (BD eq_refl)|reflexivity]|destruct BD as [BD _]; rewrite (BD eq_refl); reflexivity]. }
  split; [exact FB6|]. split. { intros x y Q I. destruct (VB x Q) as [_ LX]. specialize (LT5 y I). lia. }
  split; [exact NE|]. intros ST. destruct (FUN ST) as [FS FT]. auto.
Qed.
