(** Proofs about OpenSSL objects: stack, store, chain and signature. *)
From Verif Require Import Base PBase MBase64 MSerialize MOs MVoucher MCrypto MObjects SObjects PObjects PObjects2.
Open Scope nat_scope.

Lemma steady_keeps : forall s s' L, keeps s s' L -> steady s -> steady s'.
Proof. intros s s' L (R & _) S n. rewrite R. apply S. Qed.
Lemma bl_cnt : forall l0 s L L', bl l0 s L -> (forall x, cnt L x = cnt L' x) -> bl l0 s L'.
Proof.
  intros l0 s L L' (B & F & ND) E. split; [eapply bal_ext; [exact B|]; intros x _; apply E|]. split.
  - rewrite Forall_forall in *. intros x I. apply F. apply cnt_In. rewrite E. apply cnt_In, I.
  - rewrite (NoDup_count_occ Nat.eq_dec) in *. intros x. specialize (ND x). specialize (E x). unfold cnt in E. lia.
Qed.
Ltac cnts := intros; cbn [ol app]; repeat rewrite ?cnt_app, ?cnt_cons, ?cnt_nil; lia.
Ltac rot B := refine (bl_cnt _ _ _ _ B _); cnts.
Ltac isin := repeat progress (cbn [In app ol]; rewrite ?in_app_iff); tauto.
(** Carry what is known of the objects over a step. *)
Ltac carry K :=
  match type of K with
  | keeps ?s ?s' ?L =>
    repeat match goal with
    | V : view s ?y = ?v |- _ =>
      let H := fresh "V" in
      first [ assert (H : view s' y = v) by (rewrite (proj2 (proj2 K) y ltac:(isin)); exact V); clear V; rename H into V | clear V ]
    end;
    repeat match goal with
    | K0 : keeps ?s0 s ?L0 |- _ =>
      let H := fresh "K" in
      assert (H : keeps s0 s' L0) by (refine (keeps_trans _ _ _ _ K0 (keeps_incl _ _ _ _ K _)); intros ? ?; isin); clear K0; rename H into K0
    end;
    clear K
  end.
Lemma free_in : forall l0 s L0 L x k l, bl l0 s L0 -> (forall y, cnt L0 y = cnt (x :: L) y) -> view s x = Some (k, l) -> exists s', free k s (Some x) = Ok s' /\ bl l0 s' L /\ keeps s s' L.
Proof. intros l0 s L0 L x k l B C V. eapply free_step; [|exact V]. eapply bl_cnt; eauto. Qed.
Lemma free_opt : forall l0 s L0 L p k, bl l0 s L0 -> (forall y, cnt L0 y = cnt (ol p ++ L) y) -> (forall x, p = Some x -> exists l, view s x = Some (k, l)) -> exists s', free k s p = Ok s' /\ bl l0 s' L /\ keeps s s' L.
Proof.
  intros l0 s L0 L [x|] k B C V; cbn [ol app] in C.
  - destruct (V x eq_refl) as [l VX]. eapply free_in; eauto.
  - exists s. split; [reflexivity|]. split; [eapply bl_cnt; eauto|apply keeps_refl].
Qed.
Lemma parse_step : forall A l0 s L k (v : option A) p s', bl l0 s L -> parse k v s = (p, s') -> keeps s s' L /\
  match p with
  | None => bl l0 s' L /\ (steady s -> v = None)
  | Some (a, x) => v = Some a /\ bl l0 s' (x :: L) /\ view s' x = Some (k, [])
  end.
Proof.
  intros A l0 s L k v p s' B E. unfold parse in E. destruct v as [a|].
  - destruct (ob_new s k) as [q s1] eqn:E1. destruct (new_step _ _ _ _ _ _ B E1) as [K [(-> & B1 & R)|(-> & B1 & V & R)]]; injection E as <- <-.
    + split; [exact K|]. split; [exact B1|]. intros S. specialize (S (ob_next s)). lia.
    + auto.
  - injection E as <- <-. split; [apply keeps_refl|]. auto.
Qed.
Lemma bl_notin : forall l0 s x L, bl l0 s (x :: L) -> ~ In x L.
Proof. intros l0 s x L (_ & _ & N). inversion N; assumption. Qed.
Lemma hold_in : forall l0 s L0 L c x k l kx lx, bl l0 s L0 -> (forall y, cnt L0 y = cnt (x :: c :: L) y) -> view s c = Some (k, l) -> view s x = Some (kx, lx) -> level kx < level k ->
  exists s', hold s c x = Ok s' /\ bl l0 s' (c :: L) /\ view s' c = Some (k, l ++ [x]) /\ keeps s s' L.
Proof.
  intros l0 s L0 L c x k l kx lx B C V VX LV. destruct (hold_step l0 s (c :: L) c x k l kx lx) as (s' & E & B' & V' & A & N & R); try assumption; [eapply bl_cnt; eauto|left; reflexivity|].
  exists s'. split; [exact E|]. split; [exact B'|]. split; [exact V'|]. split; [exact R|]. split; [lia|]. intros y I. apply A. intros ->. exact (bl_notin _ _ _ _ B' I).
Qed.
Lemma share_in : forall l0 s L0 L c xs k l, bl l0 s L0 -> (forall y, cnt L0 y = cnt (c :: L) y) -> view s c = Some (k, l) -> Forall (below s l0 (level k)) xs ->
  exists s', share s c xs = Ok s' /\ bl l0 s' (c :: L) /\ view s' c = Some (k, l ++ xs) /\ keeps s s' L.
Proof.
  intros l0 s L0 L c xs k l B C V F. destruct (share_step l0 xs s (c :: L) c k l) as (s' & E & B' & V' & A & N & R); try assumption; [eapply bl_cnt; eauto|left; reflexivity|].
  exists s'. split; [exact E|]. split; [exact B'|]. split; [exact V'|]. split; [exact R|]. split; [lia|]. intros y I. apply A. intros ->. exact (bl_notin _ _ _ _ B' I).
Qed.
Lemma held_below : forall l0 s L x k l n, bl l0 s L -> In x L -> view s x = Some (k, l) -> level k < n -> below s l0 n x.
Proof. intros l0 s L x k l n (B & F & _) I V LV. split; [rewrite Forall_forall in F; auto|eauto]. Qed.

(** ** The stack *)
Lemma stack_loop_step : forall o l0 certs s L st acc ids, bl l0 s (st :: L) -> view s st = Some (KStack, ids) -> List.length ids = List.length acc ->
  exists r s' lost, stack_loop o certs s st acc = Ok (r, s') /\ keeps s s' L /\
    match r with
    | None => bl l0 s' (lost ++ L)
    | Some vs => bl l0 s' (st :: lost ++ L) /\ exists ids', view s' st = Some (KStack, ids') /\ List.length ids' = List.length vs
    end /\ (steady s -> lost = [] /\ r = option_map (app acc) (get_certificate_stack o certs)).
Proof.
  intros o l0. induction certs as [|[arr fl] certs IH]; intros s L st acc ids B V LE; cbn [stack_loop get_certificate_stack].
  - exists (Some acc), s, []. split; [reflexivity|]. split; [apply keeps_refl|]. split; [split; [exact B|eauto]|]. intros _. cbn [option_map]. rewrite app_nil_r. auto.
  - destruct (parse KCert (d2i_x509 o arr) s) as [p s1] eqn:E1. destruct (parse_step _ _ _ _ _ _ _ _ B E1) as [K P]. pose proof (keeps_refl s L) as K0. carry K. destruct p as [[v x]|].
    + destruct P as (EV & B1 & VX). rewrite EV.
      destruct (ob_call s1) as [z s2] eqn:E2. destruct (call_step _ _ _ _ _ B1 E2) as (K & B2 & Z). pose proof (proj1 K0) as R0. carry K.
      destruct (Z.ltb_spec 0 z) as [P|P].
      * destruct (hold_in l0 s2 _ L st x KStack ids KCert [] B2 ltac:(cnts) V VX ltac:(cbn [level]; lia)) as (s3 & E3 & B3 & V3 & K). carry K.
        rewrite E3. cbn [obind]. destruct (IH s3 L st (acc ++ [v]) (ids ++ [x]) B3 V3) as (r & s' & lost & E & K & M & S). { rewrite !app_length, LE. reflexivity. }
        exists r, s', lost. split; [exact E|]. pose proof (steady_keeps _ _ _ K0) as S1. carry K. split; [exact K0|]. split; [exact M|]. intros ST. destruct (S (S1 ST)) as [-> ->]. split; [reflexivity|]. destruct (get_certificate_stack o certs); cbn [option_map]; [rewrite <- app_assoc; reflexivity|reflexivity].
      * destruct (IH s2 (x :: L) st acc ids ltac:(rot B2) V LE) as (r & s' & lost & E & K & M & S). exists r, s', (lost ++ [x]). split; [exact E|]. carry K. split; [exact K0|]. split.
        { destruct r as [vs|]; [destruct M as [M Q]; split; [rot M|exact Q]|rot M]. }
        { intros ST. exfalso. specialize (ST (ob_next s1)). rewrite <- R0 in ST. lia. }
    + destruct P as [B1 P]. destruct (free_in l0 s1 _ L st KStack ids B1 ltac:(cnts) V) as (s2 & E2 & B2 & K). carry K. rewrite E2. cbn [obind]. exists None, s2, []. split; [reflexivity|]. split; [exact K0|]. split; [exact B2|]. intros ST. rewrite (P ST). auto.
Qed.
(** What a function leaves that makes a stack. *)
Lemma get_stack_step : forall o l0 certs s L, bl l0 s L -> exists r s' lost, get_stack o certs s = Ok (r, s') /\ keeps s s' L /\
  match r with
  | None => bl l0 s' (lost ++ L)
  | Some (vs, st) => bl l0 s' (st :: lost ++ L) /\ exists ids, view s' st = Some (KStack, ids) /\ List.length ids = List.length vs
  end /\ (steady s -> lost = [] /\ option_map fst r = get_certificate_stack o certs).
Proof.
  intros o l0 certs s L B. unfold get_stack. destruct (ob_new s KStack) as [p s1] eqn:E1. pose proof (keeps_refl s L) as K0. destruct (new_step _ _ _ _ _ _ B E1) as [K [(-> & B1 & R)|(-> & B1 & V & R)]]; carry K.
  - exists None, s1, []. split; [reflexivity|]. split; [exact K0|]. split; [exact B1|]. intros ST. specialize (ST (ob_next s)). lia.
  - destruct (stack_loop_step o l0 certs s1 L (ob_next s) [] [] B1 V eq_refl) as (r & s' & lost & E & K & M & S). pose proof (steady_keeps _ _ _ K0) as S1. carry K. rewrite E. cbn [obind]. destruct r as [vs|].
    + exists (Some (vs, ob_next s)), s', lost. split; [reflexivity|]. split; [exact K0|]. split; [exact M|]. intros ST. destruct (S (S1 ST)) as [-> Q]. split; [reflexivity|]. cbn [option_map fst]. rewrite Q. destruct (get_certificate_stack o certs); reflexivity.
    + exists None, s', lost. split; [reflexivity|]. split; [exact K0|]. split; [exact M|]. intros ST. destruct (S (S1 ST)) as [-> Q]. split; [reflexivity|]. cbn [option_map]. destruct (get_certificate_stack o certs); [discriminate Q|reflexivity].
Qed.
Lemma opt_get_stack_step : forall o l0 certs s L, bl l0 s L -> exists r s' lost, opt_get_stack o certs s = Ok (r, s') /\ keeps s s' L /\
  match r with
  | None => bl l0 s' (lost ++ L)
  | Some (vs, st) => bl l0 s' (ol st ++ lost ++ L) /\ (vs = None <-> st = None) /\ forall x, st = Some x -> exists ids, view s' x = Some (KStack, ids) /\ forall l, vs = Some l -> List.length ids = List.length l
  end /\ (steady s -> lost = [] /\ option_map fst r = opt_stack o certs).
Proof.
  intros o l0 certs s L B. unfold opt_get_stack, opt_stack. destruct certs as [certs|].
  - destruct (get_stack_step o l0 certs s L B) as (r & s' & lost & E & K & M & S). rewrite E. cbn [obind]. destruct r as [[vs st]|].
    + eexists _, s', lost. split; [reflexivity|]. split; [exact K|]. split.
      * destruct M as [M (ids & V & LE)]. split; [exact M|]. split; [split; discriminate|]. intros x Q. injection Q as <-. exists ids. split; [exact V|]. intros l Q. injection Q as <-. exact LE.
      * intros ST. destruct (S ST) as [-> Q]. cbn [option_map fst] in *. rewrite <- Q. auto.
    + eexists None, s', lost. split; [reflexivity|]. split; [exact K|]. split; [exact M|]. intros ST. destruct (S ST) as [-> Q]. cbn [option_map fst] in *. rewrite <- Q. auto.
  - eexists _, s, []. split; [reflexivity|]. split; [apply keeps_refl|]. split; [|auto]. split; [exact B|]. split; [tauto|]. discriminate.
Qed.

(** ** The store *)
Lemma free_store_step : forall l0 s L0 L store ptrs, bl l0 s L0 -> (forall y, cnt L0 y = cnt (ol store ++ ol ptrs ++ L) y) ->
  (forall x, store = Some x -> exists l, view s x = Some (KStore, l)) -> (forall x, ptrs = Some x -> exists l, view s x = Some (KPtrs, l)) ->
  exists s', free_x509_store s store ptrs = Ok s' /\ bl l0 s' L /\ keeps s s' L.
Proof.
  intros l0 s L0 L store ptrs B C VS VP. unfold free_x509_store. destruct (free_opt l0 s L0 (ol ptrs ++ L) store KStore B C VS) as (s1 & E1 & B1 & K1). rewrite E1. cbn [obind].
  destruct (free_opt l0 s1 _ L ptrs KPtrs B1 ltac:(reflexivity)) as (s2 & E2 & B2 & K2). { intros x Q. destruct (VP x Q) as [l V]. exists l. rewrite (proj2 (proj2 K1)); [exact V|]. subst ptrs. left. reflexivity. }
  exists s2. split; [exact E2|]. split; [exact B2|]. refine (keeps_trans _ _ _ _ (keeps_incl _ _ _ _ K1 _) K2). intros y I. apply in_or_app. right. exact I.
Qed.
(** One entry: parsed, added to the store, its reference given to the list. *)
Lemma entry_step : forall o inn l0 s L store ptrs x acc v k ids ps, level k < 2 -> bl l0 s (x :: store :: ptrs :: L) -> view s x = Some (k, []) -> view s store = Some (KStore, ids) -> view s ptrs = Some (KPtrs, ps) ->
  exists a s', store_adds o inn s store x acc v = Ok (a, s') /\ keeps s s' L /\ (steady s -> a = store_add o acc v) /\ bl l0 s' (x :: store :: ptrs :: L) /\ view s' x = Some (k, []) /\ view s' ptrs = Some (KPtrs, ps) /\ exists ids', view s' store = Some (KStore, ids').
Proof.
  intros o inn l0 s L store ptrs x acc v k ids ps LV B VX VS VP. unfold store_adds. destruct (ob_call s) as [z s1] eqn:E1. destruct (call_step _ _ _ _ _ B E1) as (K & B1 & Z). pose proof (keeps_refl s L) as K0. carry K.
  assert (ZS : steady s -> (0 <? z)%Z = true) by (intros S; subst z; apply Z.ltb_lt, S).
  destruct (store_add o acc v) eqn:A; cbn [andb]; [destruct (0 <? z)%Z eqn:Z2|].
  - destruct (in_there inn acc v).
    + exists true, s1. split; [reflexivity|]. split; [exact K0|]. split; [auto|]. split; [exact B1|]. eauto.
    + destruct (share_in l0 s1 _ (x :: ptrs :: L) store [x] KStore ids B1 ltac:(cnts) VS) as (s2 & E2 & B2 & V2 & K). { constructor; [|constructor]. eapply held_below; [exact B1|left; reflexivity|exact VX|exact LV]. }
      carry K. rewrite E2. cbn [obind]. exists true, s2. split; [reflexivity|]. split; [exact K0|]. split; [auto|]. split; [rot B2|]. eauto.
  - exists false, s1. split; [reflexivity|]. split; [exact K0|]. split; [intros S; discriminate (ZS S)|]. split; [exact B1|]. eauto.
  - exists false, s1. split; [reflexivity|]. split; [exact K0|]. split; [auto|]. split; [exact B1|]. eauto.
Qed.
Lemma push_step : forall l0 s L L0 ptrs x k ps, level k < 2 -> bl l0 s L0 -> (forall y, cnt L0 y = cnt (x :: ptrs :: L) y) -> view s x = Some (k, []) -> view s ptrs = Some (KPtrs, ps) ->
  exists z s', push_ptr_list s ptrs x = Ok (z, s') /\ keeps s s' L /\ ((z = 0%Z /\ bl l0 s' (ptrs :: L)) \/ (z = (-1)%Z /\ ~ steady s /\ bl l0 s' (x :: ptrs :: L))) /\ exists ps', view s' ptrs = Some (KPtrs, ps').
Proof.
  intros l0 s L L0 ptrs x k ps LV B C VX VP. apply (fun H => bl_cnt _ _ _ _ H C) in B. unfold push_ptr_list. destruct (ob_call s) as [z s1] eqn:E1. destruct (call_step _ _ _ _ _ B E1) as (K & B1 & Z). pose proof (keeps_refl s L) as K0. carry K.
  destruct (Z.ltb_spec 0 z) as [P|P].
  - destruct (hold_in l0 s1 _ L ptrs x KPtrs ps k [] B1 ltac:(cnts) VP VX LV) as (s2 & E2 & B2 & V2 & K). carry K. rewrite E2. cbn [obind]. exists 0%Z, s2. split; [reflexivity|]. split; [exact K0|]. split; [left; auto|eauto].
  - exists (-1)%Z, s1. split; [reflexivity|]. split; [exact K0|]. split; [right; split; [reflexivity|split; [intros S; specialize (S (ob_next s)); lia|exact B1]]|eauto].
Qed.
Lemma store_loop_step : forall o inn l0 entries s L store ptrs acc ids ps, bl l0 s (store :: ptrs :: L) -> view s store = Some (KStore, ids) -> view s ptrs = Some (KPtrs, ps) ->
  exists r s' lost, store_loop o inn entries s store ptrs acc = Ok (r, s') /\ keeps s s' L /\
    match r with
    | None => bl l0 s' (lost ++ L)
    | Some vs => bl l0 s' (store :: ptrs :: lost ++ L) /\ (exists ids, view s' store = Some (KStore, ids)) /\ exists ps, view s' ptrs = Some (KPtrs, ps)
    end /\ (steady s -> r = get_certificate_store o acc entries) /\ (steady s -> r <> None \/ takes o -> lost = []).
Proof.
  intros o inn l0.
  assert (FAIL : forall s s1 L store ptrs ids ps lost, bl l0 s1 (store :: ptrs :: lost ++ L) -> view s1 store = Some (KStore, ids) -> view s1 ptrs = Some (KPtrs, ps) -> keeps s s1 L ->
    exists s', free_x509_store s1 (Some store) (Some ptrs) = Ok s' /\ keeps s s' L /\ bl l0 s' (lost ++ L)).
  { intros s s1 L store ptrs ids ps lost B VS VP K0. destruct (free_store_step l0 s1 _ (lost ++ L) (Some store) (Some ptrs) B ltac:(cnts)) as (s2 & E2 & B2 & K); [intros x Q; injection Q as <-; eauto|intros x Q; injection Q as <-; eauto|].
    carry K. eauto. }
  induction entries as [|[arr fl] entries IH]; intros s L store ptrs acc ids ps B VS VP; cbn [store_loop get_certificate_store].
  - exists (Some acc), s, []. split; [reflexivity|]. split; [apply keeps_refl|]. split; [split; [exact B|]; eauto|]. auto.
  - destruct (fl =? CERTIFICATE_VALID)%Z; [|destruct (fl =? CERTIFICATE_CRL)%Z].
    + destruct (parse KCert (d2i_x509 o arr) s) as [p s1] eqn:E1. destruct (parse_step _ _ _ _ _ _ _ _ B E1) as [K P]. pose proof (keeps_refl s L) as K0. carry K. destruct p as [[v x]|].
      * destruct P as (EV & B1 & VX). rewrite EV. destruct (entry_step o inn l0 s1 L store ptrs x acc (inl v) KCert ids ps ltac:(cbn [level]; lia) B1 VX VS VP) as (a & s2 & E2 & K & SA & B2 & VX2 & VP2 & ids2 & VS2).
        pose proof (steady_keeps _ _ _ K0) as S1. carry K. rewrite E2. cbn [obind]. destruct a; cbn [negb].
        -- destruct (push_step l0 s2 (store :: L) _ ptrs x KCert ps ltac:(cbn [level]; lia) B2 ltac:(cnts) VX2 VP2) as (z & s3 & E3 & K & [[-> B3]|(-> & NS & B3)] & ps3 & VP3); pose proof (steady_keeps _ _ _ K0) as S2; carry K; rewrite E3; cbn [obind].
           ++ replace (0 <? 0)%Z with false by reflexivity. destruct (IH s3 L store ptrs (acc ++ [inl v]) ids2 ps3 ltac:(rot B3) VS2 VP3) as (r & s' & lost & E & K & M & S & S'). pose proof (steady_keeps _ _ _ K0) as S3. carry K. exists r, s', lost. split; [exact E|]. split; [exact K0|]. split; [exact M|]. split; [intros ST; rewrite <- (SA (S1 ST)); apply S, S3, ST|intros ST; apply S', S3, ST].
           ++ replace (-1 <? 0)%Z with true by reflexivity. destruct (FAIL s s3 L store ptrs ids2 ps3 [x] ltac:(rot B3) VS2 VP3 K0) as (s' & E & KK & B4). rewrite E. cbn [obind]. exists None, s', [x]. split; [reflexivity|]. split; [exact KK|]. split; [exact B4|]. split; intros ST; destruct (NS (S2 ST)).
        -- destruct (FAIL s s2 L store ptrs ids2 ps [x] ltac:(rot B2) VS2 VP2 K0) as (s' & E & KK & B4). rewrite E. cbn [obind]. exists None, s', [x]. split; [reflexivity|]. split; [exact KK|]. split; [exact B4|]. split; [intros ST; rewrite <- (SA (S1 ST)); reflexivity|intros ST [[]|T]; [reflexivity|rewrite T in SA; discriminate (SA (S1 ST))]].
      * destruct P as [B1 P]. destruct (FAIL s s1 L store ptrs ids ps [] ltac:(rot B1) VS VP K0) as (s' & E & KK & B4). rewrite E. cbn [obind]. exists None, s', []. split; [reflexivity|]. split; [exact KK|]. split; [exact B4|]. split; [intros ST; rewrite (P ST); reflexivity|auto].
    + destruct (parse KCrl (d2i_crl o arr) s) as [p s1] eqn:E1. destruct (parse_step _ _ _ _ _ _ _ _ B E1) as [K P]. pose proof (keeps_refl s L) as K0. carry K. destruct p as [[v x]|].
      * destruct P as (EV & B1 & VX). rewrite EV. destruct (entry_step o inn l0 s1 L store ptrs x acc (inr v) KCrl ids ps ltac:(cbn [level]; lia) B1 VX VS VP) as (a & s2 & E2 & K & SA & B2 & VX2 & VP2 & ids2 & VS2).
        pose proof (steady_keeps _ _ _ K0) as S1. carry K. rewrite E2. cbn [obind]. destruct a; cbn [negb].
        -- destruct (push_step l0 s2 (store :: L) _ ptrs x KCrl ps ltac:(cbn [level]; lia) B2 ltac:(cnts) VX2 VP2) as (z & s3 & E3 & K & [[-> B3]|(-> & NS & B3)] & ps3 & VP3); pose proof (steady_keeps _ _ _ K0) as S2; carry K; rewrite E3; cbn [obind].
           ++ replace (0 <? 0)%Z with false by reflexivity. destruct (IH s3 L store ptrs (acc ++ [inr v]) ids2 ps3 ltac:(rot B3) VS2 VP3) as (r & s' & lost & E & K & M & S & S'). pose proof (steady_keeps _ _ _ K0) as S3. carry K. exists r, s', lost. split; [exact E|]. split; [exact K0|]. split; [exact M|]. split; [intros ST; rewrite <- (SA (S1 ST)); apply S, S3, ST|intros ST; apply S', S3, ST].
           ++ replace (-1 <? 0)%Z with true by reflexivity. destruct (FAIL s s3 L store ptrs ids2 ps3 [x] ltac:(rot B3) VS2 VP3 K0) as (s' & E & KK & B4). rewrite E. cbn [obind]. exists None, s', [x]. split; [reflexivity|]. split; [exact KK|]. split; [exact B4|]. split; intros ST; destruct (NS (S2 ST)).
        -- destruct (FAIL s s2 L store ptrs ids2 ps [x] ltac:(rot B2) VS2 VP2 K0) as (s' & E & KK & B4). rewrite E. cbn [obind]. exists None, s', [x]. split; [reflexivity|]. split; [exact KK|]. split; [exact B4|]. split; [intros ST; rewrite <- (SA (S1 ST)); reflexivity|intros ST [[]|T]; [reflexivity|rewrite T in SA; discriminate (SA (S1 ST))]].
      * destruct P as [B1 P]. destruct (FAIL s s1 L store ptrs ids ps [] ltac:(rot B1) VS VP K0) as (s' & E & KK & B4). rewrite E. cbn [obind]. exists None, s', []. split; [reflexivity|]. split; [exact KK|]. split; [exact B4|]. split; [intros ST; rewrite (P ST); reflexivity|auto].
    + destruct (FAIL s s L store ptrs ids ps [] B VS VP (keeps_refl _ _)) as (s' & E & KK & B4). rewrite E. cbn [obind]. exists None, s', []. split; [reflexivity|]. split; [exact KK|]. split; [exact B4|]. auto.
Qed.

Lemma get_store_step : forall o inn l0 entries s L, bl l0 s L -> exists r s' lost, get_store o inn entries s = Ok (r, s') /\ keeps s s' L /\
  match r with
  | None => bl l0 s' (lost ++ L)
  | Some (_, store, ptrs) => bl l0 s' (store :: ptrs :: lost ++ L) /\ (exists ids, view s' store = Some (KStore, ids)) /\ exists ps, view s' ptrs = Some (KPtrs, ps)
  end /\ (steady s -> option_map (fun x => fst (fst x)) r = get_certificate_store o [] entries) /\ (steady s -> r <> None \/ takes o -> lost = []).
Proof.
  intros o inn l0 entries s L B. unfold get_store. destruct (ob_new s KPtrs) as [p s1] eqn:E1. pose proof (keeps_refl s L) as K0. destruct (new_step _ _ _ _ _ _ B E1) as [K [(-> & B1 & R)|(-> & B1 & VP & R)]]; carry K.
  - exists None, s1, []. split; [reflexivity|]. split; [exact K0|]. split; [exact B1|]. split; intros ST; specialize (ST (ob_next s)); lia.
  - destruct (ob_new s1 KStore) as [p s2] eqn:E2. pose proof (steady_keeps _ _ _ K0) as S1. destruct (new_step _ _ _ _ _ _ B1 E2) as [K [(-> & B2 & R2)|(-> & B2 & VS & R2)]]; carry K.
    + destruct (free_store_step l0 s2 _ L None (Some (ob_next s)) B2 ltac:(cnts)) as (s3 & E3 & B3 & K); [discriminate|intros x Q; injection Q as <-; eauto|]. carry K. rewrite E3. cbn [obind]. exists None, s3, []. split; [reflexivity|]. split; [exact K0|]. split; [exact B3|]. split; intros ST; specialize (S1 ST (ob_next s1)); lia.
    + destruct (store_loop_step o inn l0 entries s2 L (ob_next s1) (ob_next s) [] [] [] B2 VS VP) as (r & s' & lost & E & K & M & S & S'). pose proof (steady_keeps _ _ _ K0) as S2. carry K. rewrite E. cbn [obind]. destruct r as [vs|].
      * eexists (Some (vs, _, _)), s', lost. split; [reflexivity|]. split; [exact K0|]. split; [exact M|]. split; [intros ST; rewrite <- (S (S2 ST)); reflexivity|intros ST _; apply S'; [exact (S2 ST)|left; discriminate]].
      * exists None, s', lost. split; [reflexivity|]. split; [exact K0|]. split; [exact M|]. split; [intros ST; rewrite <- (S (S2 ST)); reflexivity|intros ST [[]|T]; [reflexivity|apply S'; [exact (S2 ST)|right; exact T]]].
Qed.
Lemma opt_get_store_step : forall o inn l0 store s L, bl l0 s L -> exists r s' lost, opt_get_store o inn store s = Ok (r, s') /\ keeps s s' L /\
  match r with
  | None => bl l0 s' (lost ++ L)
  | Some (_, st, ptrs) => bl l0 s' (ol st ++ ol ptrs ++ lost ++ L) /\ (forall x, st = Some x -> exists ids, view s' x = Some (KStore, ids)) /\ (forall x, ptrs = Some x -> exists ps, view s' x = Some (KPtrs, ps))
  end /\ (steady s -> option_map (fun x => fst (fst x)) r = opt_store o store) /\ (steady s -> r <> None \/ takes o -> lost = []).
Proof.
  intros o inn l0 store s L B. unfold opt_get_store, opt_store. destruct store as [l|].
  - destruct (get_store_step o inn l0 l s L B) as (r & s' & lost & E & K & M & S & S'). rewrite E. cbn [obind]. destruct r as [[[vs st] ptrs]|].
    + eexists _, s', lost. split; [reflexivity|]. split; [exact K|]. split; [|split; [intros ST; rewrite <- (S ST); reflexivity|intros ST _; apply S'; [exact ST|left; discriminate]]].
      destruct M as (M & VS & VP). split; [exact M|]. split; intros x Q; injection Q as <-; assumption.
    + exists None, s', lost. split; [reflexivity|]. split; [exact K|]. split; [exact M|]. split; [intros ST; rewrite <- (S ST); reflexivity|intros ST [[]|T]; [reflexivity|apply S'; [exact ST|right; exact T]]].
  - eexists _, s, []. split; [reflexivity|]. split; [apply keeps_refl|]. split; [|auto]. split; [exact B|]. split; discriminate.
Qed.

(** ** The chain *)
Lemma picked_in : forall t st tr m p x, In x (picked t st tr m p) -> In x t \/ In x st \/ In x tr \/ In x m.
Proof.
  intros t st tr m p x I. assert (F : forall n l, In x (firstn n l) -> In x l) by (intros n l J; rewrite <- (firstn_skipn n l); apply in_or_app; left; exact J). assert (SK : forall n l, In x (skipn n l) -> In x l) by (intros n l J; rewrite <- (firstn_skipn n l); apply in_or_app; right; exact J).
  destruct p; cbn [picked] in I; apply F in I; [left|right; left|right; right; left|right; right; right]; try exact I; eapply SK; exact I.
Qed.
Lemma held_by_below : forall l0 s L p k, bl l0 s L -> (forall x, p = Some x -> In x L /\ exists l, view s x = Some (k, l)) -> level k = 2 -> Forall (below s l0 2) (held_by s p).
Proof.
  intros l0 s L [x|] k B H LV; cbn [held_by]; [|constructor]. destruct (H x eq_refl) as [I [l V]]. destruct (view_at _ _ _ _ V) as [r E]. rewrite E. rewrite <- LV. eapply kids_below; eauto.
Qed.
Lemma below_keeps : forall l0 s s' n x, (forall y k l, view s y = Some (k, l) -> view s' y = Some (k, l)) -> below s l0 n x -> below s' l0 n x.
Proof. intros l0 s s' n x H [L (k & l & V & LV)]. split; [exact L|]. eauto. Qed.
Lemma new_views : forall s k p s', ob_new s k = (p, s') -> forall y k' l, view s y = Some (k', l) -> view s' y = Some (k', l).
Proof.
  intros s k p s' E y k' l V. destruct (view_at _ _ _ _ V) as [r EY]. pose proof (alive_lt _ _ _ _ _ EY). unfold ob_new in E. destruct (_ <=? 0)%Z; injection E as <- <-; unfold view; rewrite add_at; (replace (y =? ob_next s) with false by (symmetry; apply Nat.eqb_neq; lia)); rewrite EY; reflexivity.
Qed.
Lemma built_step : forall o inn l0 s L x v stack sv store tv lx ls, bl l0 s L -> In x L -> view s x = Some (KCert, lx) -> In stack L -> view s stack = Some (KStack, ls) ->
  (forall y, store = Some y -> In y L /\ exists l, view s y = Some (KStore, l)) ->
  exists r s', built_chain o inn s x v stack sv store tv = Ok (r, s') /\ keeps s s' L /\
    match r with None => bl l0 s' L | Some (c, q) => bl l0 s' (q :: L) /\ exists l, view s' q = Some (KStack, l) end /\ (steady s -> option_map fst r = build_chain o v sv tv).
Proof.
  intros o inn l0 s L x v stack sv store tv lx ls B IX VX IS VS HT. unfold built_chain. destruct (build_chain o v sv tv) as [chain|]; [|exists None, s; split; [reflexivity|]; split; [apply keeps_refl|]; auto].
  assert (FB : Forall (below s l0 2) (flat_map (picked [x] (held_by s (Some stack)) (held_by s store) []) (in_chain inn v sv tv))).
  { apply Forall_forall. intros y I. apply in_flat_map in I as (p & _ & I). apply picked_in in I as [I|[I|[I|[]]]].
    - destruct I as [<-|[]]. eapply held_below; [exact B|exact IX|exact VX|cbn [level]; lia].
    - refine (proj1 (Forall_forall _ _) _ y I). eapply held_by_below; [exact B| |]; [intros z Q; injection Q as <-; eauto|reflexivity].
    - refine (proj1 (Forall_forall _ _) _ y I). eapply held_by_below; [exact B|exact HT|reflexivity]. }
  destruct (ob_new s KStack) as [p s1] eqn:E1. pose proof (keeps_refl s L) as K0. pose proof (new_views _ _ _ _ E1) as NV. destruct (new_step _ _ _ _ _ _ B E1) as [K [(-> & B1 & R)|(-> & B1 & V & R)]].
  - exists None, s1. split; [reflexivity|]. split; [exact K|]. split; [exact B1|]. intros ST. specialize (ST (ob_next s)). lia.
  - destruct (share_in l0 s1 _ L (ob_next s) _ KStack [] B1 ltac:(cnts) V (Forall_impl _ (fun y => below_keeps l0 s s1 2 y NV) FB)) as (s2 & E2 & B2 & V2 & K2). rewrite E2. cbn [obind]. eexists (Some (chain, _)), s2. split; [reflexivity|]. split; [exact (keeps_trans _ _ _ _ K K2)|]. split; [split; [exact B2|eauto]|reflexivity].
Qed.
(** What a run of a function leaves: the results [R], what is lost and what was there. *)
Theorem verify_cert_step : forall o inn l0 cert certs store s L d, ba_read cert = Ok d -> bl l0 s L ->
  exists z s' lost, verify_cert o inn cert certs store s = Ok (z, s') /\ keeps s s' L /\ bl l0 s' (lost ++ L) /\ (steady s -> crypto_verify_cert o cert certs store = Ok z) /\ (steady s -> takes o -> lost = []).
Proof.
  intros o inn l0 cert certs store s L d RD B. unfold verify_cert, crypto_verify_cert. destruct (ba_data cert); [|eexists _, s, []; split; [reflexivity|]; split; [apply keeps_refl|]; auto].
  destruct certs as [cl|]; [|eexists _, s, []; split; [reflexivity|]; split; [apply keeps_refl|]; auto]. rewrite RD. cbn [obind].
  destruct (parse KCert (d2i_x509 o d) s) as [p s1] eqn:E1. destruct (parse_step _ _ _ _ _ _ _ _ B E1) as [K P]. pose proof (keeps_refl s L) as K0. carry K. destruct p as [[v x]|].
  2:{ destruct P as [B1 P]. eexists _, s1, []. split; [reflexivity|]. split; [exact K0|]. split; [exact B1|]. split; [intros ST; rewrite (P ST); reflexivity|auto]. }
  destruct P as (-> & B1 & VX). destruct (get_stack_step o l0 cl s1 (x :: L) B1) as (r & s2 & lost1 & E2 & K & M & S). pose proof (steady_keeps _ _ _ K0) as S1. carry K. rewrite E2. cbn [obind]. destruct r as [[sv stack]|].
  2:{ destruct (free_in l0 s2 _ (lost1 ++ L) x KCert [] M ltac:(cnts) VX) as (s3 & E3 & B3 & K). carry K. rewrite E3. cbn [obind]. eexists _, s3, lost1. split; [reflexivity|]. split; [exact K0|]. split; [exact B3|]. split; [intros ST; destruct (S (S1 ST)) as [_ Q]; rewrite <- Q; reflexivity|intros ST _; apply (S (S1 ST))]. }
  destruct M as [B2 (ids & VS & _)]. destruct (opt_get_store_step o inn l0 store s2 _ B2) as (r & s3 & lost2 & E3 & K & M & Q1 & Q2). pose proof (steady_keeps _ _ _ K0) as S2. carry K. rewrite E3. cbn [obind]. destruct r as [[[tv st] ptrs]|].
  2:{ destruct (free_in l0 s3 _ (x :: lost2 ++ lost1 ++ L) stack KStack ids M ltac:(cnts) VS) as (s4 & E4 & B4 & K). carry K. rewrite E4. cbn [obind]. destruct (free_in l0 s4 _ (lost2 ++ lost1 ++ L) x KCert [] B4 ltac:(cnts) VX) as (s5 & E5 & B5 & K). carry K. rewrite E5. cbn [obind].
      eexists _, s5, (lost2 ++ lost1). split; [reflexivity|]. split; [exact K0|]. split; [rot B5|]. split; [intros ST; destruct (S (S1 ST)) as [_ Q]; rewrite <- Q, <- (Q1 (S2 ST)); reflexivity|].
      intros ST T. rewrite (Q2 (S2 ST) (or_intror T)), (proj1 (S (S1 ST))). reflexivity. }
  destruct M as (B3 & VT & VP). assert (IX : In x (ol st ++ ol ptrs ++ lost2 ++ stack :: lost1 ++ x :: L)) by isin. assert (IS : In stack (ol st ++ ol ptrs ++ lost2 ++ stack :: lost1 ++ x :: L)) by isin.
  destruct (built_step o inn l0 s3 _ x v stack sv st tv [] ids B3 IX VX IS VS) as (out & s4 & E4 & K & M & Q3). { intros y Q. split; [subst st; isin|eauto]. }
  pose proof (steady_keeps _ _ _ K0) as S3. rewrite E4. cbn [obind].
  set (q := match out with Some (_, c) => Some c | None => None end).
  assert (B4 : bl l0 s4 (ol q ++ ol st ++ ol ptrs ++ lost2 ++ stack :: lost1 ++ x :: L)) by (destruct out as [[c q']|]; [exact (proj1 M)|exact M]).
  assert (VQ : forall y, q = Some y -> exists l, view s4 y = Some (KStack, l)) by (intros y Q; destruct out as [[c q']|]; [injection Q as <-; exact (proj2 M)|discriminate Q]).
  assert (VT4 : forall y, st = Some y -> exists l, view s4 y = Some (KStore, l)) by (intros y Q; destruct (VT y Q) as [l V]; exists l; rewrite (proj2 (proj2 K)); [exact V|subst st; isin]).
  assert (VP4 : forall y, ptrs = Some y -> exists l, view s4 y = Some (KPtrs, l)) by (intros y Q; destruct (VP y Q) as [l V]; exists l; rewrite (proj2 (proj2 K)); [exact V|subst ptrs; isin]).
  carry K. destruct (free_store_step l0 s4 _ (ol q ++ stack :: x :: lost2 ++ lost1 ++ L) st ptrs B4 ltac:(cnts) VT4 VP4) as (s5 & E5 & B5 & K). rewrite E5. cbn [obind].
  assert (VQ5 : forall y, q = Some y -> exists l, view s5 y = Some (KStack, l)) by (intros y Q; destruct (VQ y Q) as [l V]; exists l; rewrite (proj2 (proj2 K)); [exact V|rewrite Q; isin]). carry K.
  destruct (free_in l0 s5 _ (ol q ++ x :: lost2 ++ lost1 ++ L) stack KStack ids B5 ltac:(cnts) VS) as (s6 & E6 & B6 & K). rewrite E6. cbn [obind].
  assert (VQ6 : forall y, q = Some y -> exists l, view s6 y = Some (KStack, l)) by (intros y Q; destruct (VQ5 y Q) as [l V]; exists l; rewrite (proj2 (proj2 K)); [exact V|rewrite Q; isin]). carry K.
  destruct (free_opt l0 s6 _ (x :: lost2 ++ lost1 ++ L) q KStack B6 ltac:(cnts) VQ6) as (s7 & E7 & B7 & K). carry K. fold q. rewrite E7. cbn [obind].
  destruct (free_in l0 s7 _ (lost2 ++ lost1 ++ L) x KCert [] B7 ltac:(cnts) VX) as (s8 & E8 & B8 & K). carry K. rewrite E8. cbn [obind].
  eexists _, s8, (lost2 ++ lost1). split; [reflexivity|]. split; [exact K0|]. split; [rot B8|]. split.
  - intros ST. destruct (S (S1 ST)) as [_ Q]. rewrite <- Q. cbn [option_map fst]. rewrite <- (Q1 (S2 ST)). cbn [option_map fst]. rewrite <- (Q3 (S3 ST)). destruct out as [[[|] ?]|]; reflexivity.
  - intros ST T. rewrite (Q2 (S2 ST) (or_intror T)), (proj1 (S (S1 ST))). reflexivity.
Qed.
