(** Proofs about OpenSSL objects: keys and certificates made. *)
From Verif Require Import Base PBase MBase64 MSerialize MOs MVoucher MCrypto MObjects SObjects PObjects PObjects2 PObjects3 PObjects4 PObjects5 PObjects6 PObjects7.
Open Scope nat_scope.

Lemma free_next : forall l0 s L k x s', bl l0 s L -> In x L -> free k s (Some x) = Ok s' -> ob_next s' = ob_next s.
Proof. intros l0 s L k x s' (B & F & _) I E. rewrite Forall_forall in F. destruct (free_bal l0 s _ k (Some x) s' B ltac:(intros y Q; injection Q as <-; auto) E) as [_ (N & _)]. exact N. Qed.
Lemma new_next : forall s k p s', ob_new s k = (p, s') -> ob_next s' = S (ob_next s).
Proof. intros s k p s' E. unfold ob_new in E. destruct (_ <=? 0)%Z; injection E as <- <-; unfold ob_next, ob_add; cbn [ob_list]; rewrite app_length; cbn [List.length]; lia. Qed.
Lemma call_next : forall s z s', ob_call s = (z, s') -> ob_next s' = S (ob_next s).
Proof. intros s z s' E. unfold ob_call in E. injection E as <- <-. unfold ob_next, ob_add; cbn [ob_list]; rewrite app_length; cbn [List.length]; lia. Qed.
Lemma make_step : forall l0 s L k z p s', bl l0 s L -> ob_make s k = (z, p, s') -> z = ob_ret s (ob_next s) /\ ob_next s' = S (ob_next s) /\ keeps s s' L /\
  ((p = None /\ bl l0 s' L /\ (z <= 0)%Z) \/ (p = Some (ob_next s) /\ bl l0 s' (ob_next s :: L) /\ view s' (ob_next s) = Some (k, []) /\ (0 < z)%Z)).
Proof.
  intros l0 s L k z p s' B E. unfold ob_make in E. destruct (ob_new s k) as [q s1] eqn:E1. injection E as <- <- <-. split; [reflexivity|]. split; [eapply new_next; exact E1|]. exact (new_step _ _ _ _ _ _ B E1).
Qed.
Lemma holders_only : forall l i x, i < List.length l -> (forall z, z < List.length l -> z <> i -> ~ In x (kids (nth z l Gone))) -> holders l x = cnt (kids (nth i l Gone)) x.
Proof.
  induction l as [|v l IH]; intros [|i] x L N; cbn [List.length nth holders] in *; try lia.
  - rewrite (holders_none l x); [lia|]. intros z LZ. exact (N (S z) ltac:(lia) ltac:(lia)).
  - rewrite (IH i x ltac:(lia)); [|intros z LZ NZ; exact (N (S z) ltac:(lia) ltac:(lia))]. pose proof (N 0 ltac:(lia) ltac:(lia)) as N0. cbn [nth] in N0. pose proof (cnt_pos (kids v) x). rewrite cnt_In in N0. lia.
Qed.
Lemma reach_key : forall s x b, kids (ob_at s x) = [b] -> kids (ob_at s b) = [] -> forall y, reach s x y -> y = x \/ y = b.
Proof. intros s x b KX KB y R. induction R as [|x y z R IH I]; [left; reflexivity|]. destruct (IH KX) as [->| ->]; [rewrite KX in I; destruct I as [<-|[]]; right; reflexivity|rewrite KB in I; destruct I]. Qed.
(** The array holds its buffer and nothing else is left. *)
Lemma bl_key : forall s s' x b, bl (ob_list s) s' [x] -> view s' x = Some (KList, [b]) -> view s' b = Some (KBuf, []) -> leaves_key s s' (Some x).
Proof.
  intros s s' x b BL VX VB. pose proof BL as (B & F & ND). split; [eapply bl_apart; exact BL|]. inversion F as [|? ? LX _]; subst. fold (ob_next s) in LX. destruct (view_at _ _ _ _ VX) as [rx EX]. destruct (view_at _ _ _ _ VB) as [rb EB].
  assert (LB : ob_next s <= b) by (apply (bal_kids _ _ _ B x b LX); rewrite EX; left; reflexivity). assert (NB : x <> b) by (intros ->; rewrite VX in VB; discriminate VB).
  assert (ALL : forall y k r l, ob_next s <= y -> ob_at s' y = Alive k r l -> y = x \/ y = b).
  { intros y k r l L E. destruct (rooted _ _ _ B 2 y k r l ltac:(lia) L E) as (t & G & LT & RT). apply cnt_In in G. destruct G as [<-|[]]. apply (reach_key s' x b); [rewrite EX; reflexivity|rewrite EB; reflexivity|exact RT]. }
  pose proof (bal_refs _ _ _ B x LX) as RX. pose proof (bal_refs _ _ _ B b LB) as RB. rewrite EX in RX. rewrite EB in RB. cbn [refs] in RX, RB. rewrite !cnt_cons, !cnt_nil in RX, RB. rewrite Nat.eqb_refl in RX. destruct (Nat.eqb_spec x b) as [Q|_]; [contradiction|].
  destruct (bal_old _ _ _ B) as [l1 EL]. destruct (nth_skip _ _ _ EL) as [SK A]. pose proof (alive_lt _ _ _ _ _ EX) as LTX. unfold ob_next in LTX, LX. rewrite EL, app_length in LTX.
  assert (IDX : List.length (ob_list s) + (x - List.length (ob_list s)) = x) by lia.
  assert (HOLD : forall y, (forall z, z < List.length l1 -> z <> x - List.length (ob_list s) -> ~ In y (kids (nth z l1 Gone)))).
  { intros y z LZ NZ I. rewrite A in I. destruct (ob_at s' (List.length (ob_list s) + z)) as [k r l|] eqn:EZ; [|destruct I]. destruct (ALL (List.length (ob_list s) + z) k r l ltac:(unfold ob_next; lia) EZ) as [Q|Q]; [lia|]. rewrite Q, EB in EZ. injection EZ as <- <- <-. destruct I. }
  rewrite SK in RX, RB. rewrite (holders_only l1 (x - List.length (ob_list s))) in RX, RB by (try lia; apply HOLD). rewrite A, IDX, EX in RX, RB. cbn [kids] in RX, RB. rewrite cnt_cons, cnt_nil in RX, RB. rewrite Nat.eqb_refl in RB. destruct (Nat.eqb_spec b x) as [Q|_]; [congruence|].
  exists b. assert (rx = 1) by lia. assert (rb = 1) by lia. subst rx rb. split; [exact LX|]. split; [exact LB|]. split; [exact NB|]. split; [exact EX|]. split; [exact EB|].
  intros y LY N1 N2. destruct (ob_at s' y) as [k r l|] eqn:EY; [|reflexivity]. destruct (ALL y _ _ _ LY EY); contradiction.
Qed.

(** ** Keys *)
Ltac some V := let x := fresh in let Q := fresh in intros x Q; injection Q as <-; eexists; exact V.
Theorem rsakey_exact : forall s, 
  ((exists k, generate_rsakey s = UB k) <-> (0 < ret s 0)%Z /\ (0 < ret s 1)%Z /\ ret s 2 <> 0%Z /\ ret s 3 <> 0%Z /\ (ret s 4 < 0)%Z) /\
  (forall r s', generate_rsakey s = Ok (r, s') -> leaves_key s s' r).
Proof.
  intros s. unfold generate_rsakey. pose proof (bl_start s) as B. set (l0 := ob_list s) in *. pose proof (keeps_refl s []) as K0.
  destruct (ob_new s KList) as [p s1] eqn:E1. pose proof (new_next _ _ _ _ E1) as N1. destruct (new_step _ _ _ _ _ _ B E1) as [K [(-> & B1 & R1)|(-> & B1 & VK & R1)]]; carry K.
  { split; [split; [intros [k Q]; discriminate Q|unfold ret; rewrite Nat.add_0_r; lia]|]. intros r s' Q. injection Q as <- <-. apply bl_leaves; [exact B1|constructor]. }
  remember (ob_next s) as key eqn:HK. destruct (ob_new s1 KCtx) as [p s2] eqn:E2. pose proof (new_next _ _ _ _ E2) as N2. pose proof (proj1 K0) as RT1. destruct (new_step _ _ _ _ _ _ B1 E2) as [K [(-> & B2 & R2)|(-> & B2 & VC & R2)]]; carry K; rewrite RT1 in R2.
  { destruct (free_in l0 s2 _ [] key KList [] B2 ltac:(cnts) VK) as (s3 & E3 & B3 & K). rewrite E3. cbn [obind]. split; [split; [intros [k Q]; discriminate Q|unfold ret; rewrite <- HK, Nat.add_1_r, <- N1; lia]|]. intros r s' Q. injection Q as <- <-. apply bl_leaves; [exact B3|constructor]. }
  remember (ob_next s1) as ctx eqn:HC.
  assert (FAIL : forall s3, bl l0 s3 [ctx; key] -> view s3 key = Some (KList, []) -> view s3 ctx = Some (KCtx, []) -> exists s', obind (free KCtx s3 (Some ctx)) (fun s => obind (free KList s (Some key)) (fun s => Ok (None (A := nat), s))) = Ok (None, s') /\ leaves s s' []).
  { intros s3 B3 VK3 VC3. destruct (free_in l0 s3 _ [key] ctx KCtx [] B3 ltac:(cnts) VC3) as (s4 & E4 & B4 & K). carry K. rewrite E4. cbn [obind]. destruct (free_in l0 s4 _ [] key KList [] B4 ltac:(cnts) VK3) as (s5 & E5 & B5 & K5). rewrite E5. cbn [obind]. exists s5. split; [reflexivity|]. apply bl_leaves; [exact B5|constructor]. }
  destruct (ob_call s2) as [z3 s3] eqn:E3. pose proof (call_next _ _ _ E3) as N3. pose proof (proj1 K0) as RT2. destruct (call_step _ _ _ _ _ B2 E3) as (K & B3 & Z3). carry K. replace (ob_ret _ _) with (ret s 2) in Z3 by (rewrite RT2; unfold ret; f_equal; lia).
  destruct (Z.eqb_spec z3 0) as [Q3|Q3].
  { destruct (FAIL s3 B3 VK VC) as (s' & E & LV). rewrite E. split; [split; [intros [k Q]; discriminate Q|lia]|]. intros r s2' Q. injection Q as <- <-. exact LV. }
  destruct (ob_call s3) as [z4 s4] eqn:E4. pose proof (call_next _ _ _ E4) as N4. pose proof (proj1 K0) as RT3. destruct (call_step _ _ _ _ _ B3 E4) as (K & B4 & Z4). carry K. replace (ob_ret _ _) with (ret s 3) in Z4 by (rewrite RT3; unfold ret; f_equal; lia).
  destruct (Z.eqb_spec z4 0) as [Q4|Q4].
  { destruct (FAIL s4 B4 VK VC) as (s' & E & LV). rewrite E. split; [split; [intros [k Q]; discriminate Q|lia]|]. intros r s2' Q. injection Q as <- <-. exact LV. }
  destruct (ob_make s4 KKey) as [[z5 p] s5] eqn:E5. pose proof (proj1 K0) as RT4. destruct (make_step _ _ _ _ _ _ _ B4 E5) as (Z5 & N5 & K & D). carry K. replace (ob_ret _ _) with (ret s 4) in Z5 by (rewrite RT4; unfold ret; f_equal; lia).
  destruct (Z.eqb_spec z5 0) as [Q5|Q5].
  { destruct D as [(-> & B5 & _)|(_ & _ & _ & Q)]; [|lia]. destruct (FAIL s5 B5 VK VC) as (s' & E & LV). rewrite E. split; [split; [intros [k Q]; discriminate Q|lia]|]. intros r s2' Q. injection Q as <- <-. exact LV. }
  assert (P0 : (0 < ret s 0)%Z) by (unfold ret; rewrite <- HK, Nat.add_0_r; exact R1). assert (P1 : (0 < ret s 1)%Z) by (unfold ret; rewrite <- HK, Nat.add_1_r, <- N1; exact R2).
  destruct D as [(-> & B5 & P5)|(-> & B5 & VP & P5)].
  { destruct (free_in l0 s5 _ [key] ctx KCtx [] B5 ltac:(cnts) VC) as (s6 & E6 & B6 & K). rewrite E6. cbn [obind evpkey_to_derbuf]. split; [split; [intros _; repeat split; try assumption; lia|eauto]|]. intros r s' Q. discriminate Q. }
  remember (ob_next s4) as pkey eqn:HP. destruct (free_in l0 s5 _ [pkey; key] ctx KCtx [] B5 ltac:(cnts) VC) as (s6 & E6 & B6 & K). carry K. rewrite E6. cbn [obind]. unfold evpkey_to_derbuf. destruct (view_at _ _ _ _ VP) as [rp EP]. rewrite EP. cbn [obind].
  destruct (ob_new s6 KBuf) as [p s7] eqn:E7. destruct (new_step _ _ _ _ _ _ B6 E7) as [K [(-> & B7 & R7)|(-> & B7 & VB & R7)]]; carry K; cbn [obind].
  - destruct (free_in l0 s7 _ [key] pkey KKey [] B7 ltac:(cnts) VP) as (s8 & E8 & B8 & K). carry K. rewrite E8. cbn [obind]. destruct (free_in l0 s8 _ [] key KList [] B8 ltac:(cnts) VK) as (s9 & E9 & B9 & K). rewrite E9. cbn [obind].
    split; [split; [intros [k Q]; discriminate Q|lia]|]. intros r s' Q. injection Q as <- <-. apply bl_leaves; [exact B9|constructor].
  - set (b := ob_next s6) in *. assert (NBK : b <> pkey) by (intros Q; destruct (bl_notin _ _ _ _ B7); rewrite Q; left; reflexivity).
    destruct (hold_step l0 s7 [pkey; key] key b KList [] KBuf [] ltac:(rot B7) ltac:(right; left; reflexivity) VK VB ltac:(cbn [level]; lia)) as (s8 & E8 & B8 & V8 & A8 & _). rewrite E8. cbn [obind].
    assert (VB8 : view s8 b = Some (KBuf, [])) by (rewrite A8; [exact VB|]; intros Q; destruct (bl_notin _ _ _ _ B7); rewrite Q; right; left; reflexivity). assert (VP8 : view s8 pkey = Some (KKey, [])) by (rewrite A8; [exact VP|]; intros Q; rewrite Q in VP; congruence).
    destruct (free_in l0 s8 _ [key] pkey KKey [] B8 ltac:(cnts) VP8) as (s9 & E9 & B9 & K). rewrite E9. cbn [obind]. assert (V9 : view s9 key = Some (KList, [b])) by (rewrite (proj2 (proj2 K)); [exact V8|left; reflexivity]).
    split; [split; [intros [k Q]; discriminate Q|lia]|]. intros r s' Q. injection Q as <- <-. apply (bl_key s s9 key b B9 V9).
    pose proof (kids_below l0 s9 [key] key KList [b] B9 ltac:(left; reflexivity) V9) as KB. destruct (Forall_inv KB) as [_ (kb & lb & VB9 & _)]. rewrite VB9.
    assert (LS : less s8 s9). { destruct B8 as (BB & FF & _). pose proof (Forall_inv FF) as LPK. destruct (free_bal l0 s8 _ KKey (Some pkey) s9 BB ltac:(intros y Q; injection Q as <-; assumption) E9) as [_ LS]. exact LS. }
    destruct (view_at _ _ _ _ VB9) as [rb EB9]. destruct LS as (_ & _ & AA). destruct (AA _ _ _ _ EB9) as [rb' EB8]. unfold view in VB8. rewrite EB8 in VB8. exact VB8.
Qed.

Theorem eckey_exact : forall s,
  ((exists k, generate_eckey s = UB k) <-> (0 < ret s 0)%Z /\ ret s 1 <> 0%Z /\ ret s 2 <> 0%Z /\ (0 < ret s 3)%Z /\ (0 < ret s 4)%Z /\ ret s 5 <> 0%Z /\ (ret s 6 < 0)%Z) /\
  (forall r s', generate_eckey s = Ok (r, s') -> leaves s s' (ol r)).
Proof.
  intros s. unfold generate_eckey. pose proof (bl_start s) as B. set (l0 := ob_list s) in *. pose proof (keeps_refl s []) as K0.
  assert (END : forall s', bl l0 s' [] -> leaves s s' []) by (intros s' B'; apply bl_leaves; [exact B'|constructor]).
  destruct (ob_new s KCtx) as [p s1] eqn:E1. pose proof (new_next _ _ _ _ E1) as N1. destruct (new_step _ _ _ _ _ _ B E1) as [K [(-> & B1 & R1)|(-> & B1 & VC & R1)]]; carry K; replace (ob_ret _ _) with (ret s 0) in R1 by (unfold ret; f_equal; lia).
  { split; [split; [intros [k Q]; discriminate Q|lia]|]. intros r s' Q. injection Q as <- <-. apply END, B1. }
  remember (ob_next s) as ctx eqn:HC.
  assert (FAIL : forall s3 c l, bl l0 s3 [c] -> view s3 c = Some (KCtx, l) -> exists s', obind (free KCtx s3 (Some c)) (fun s => Ok (None (A := nat), s)) = Ok (None, s') /\ leaves s s' []).
  { intros s3 c l B3 VC3. destruct (free_in l0 s3 _ [] c KCtx l B3 ltac:(cnts) VC3) as (s4 & E4 & B4 & K). rewrite E4. cbn [obind]. exists s4. split; [reflexivity|]. apply END, B4. }
  destruct (ob_call s1) as [z2 s2] eqn:E2. pose proof (call_next _ _ _ E2) as N2. pose proof (proj1 K0) as RT1. destruct (call_step _ _ _ _ _ B1 E2) as (K & B2 & Z2). carry K. replace (ob_ret _ _) with (ret s 1) in Z2 by (rewrite RT1; unfold ret; f_equal; lia).
  destruct (Z.eqb_spec z2 0) as [Q2|Q2].
  { destruct (FAIL s2 ctx [] B2 VC) as (s' & E & LV). rewrite E. split; [split; [intros [k Q]; discriminate Q|lia]|]. intros r s2' Q. injection Q as <- <-. exact LV. }
  destruct (ob_call s2) as [z3 s3] eqn:E3. pose proof (call_next _ _ _ E3) as N3. pose proof (proj1 K0) as RT2. destruct (call_step _ _ _ _ _ B2 E3) as (K & B3 & Z3). carry K. replace (ob_ret _ _) with (ret s 2) in Z3 by (rewrite RT2; unfold ret; f_equal; lia).
  destruct (Z.eqb_spec z3 0) as [Q3|Q3].
  { destruct (FAIL s3 ctx [] B3 VC) as (s' & E & LV). rewrite E. split; [split; [intros [k Q]; discriminate Q|lia]|]. intros r s2' Q. injection Q as <- <-. exact LV. }
  destruct (ob_make s3 KKey) as [[z4 p] s4] eqn:E4. pose proof (proj1 K0) as RT3. destruct (make_step _ _ _ _ _ _ _ B3 E4) as (Z4 & N4 & K & D). carry K. replace (ob_ret _ _) with (ret s 3) in Z4 by (rewrite RT3; unfold ret; f_equal; lia).
  destruct (Z.eqb_spec z4 0) as [Q4|Q4].
  { destruct D as [(-> & B4 & _)|(_ & _ & _ & Q)]; [|lia]. destruct (FAIL s4 ctx [] B4 VC) as (s' & E & LV). rewrite E. split; [split; [intros [k Q]; discriminate Q|lia]|]. intros r s2' Q. injection Q as <- <-. exact LV. }
  destruct D as [(-> & B4 & P4)|(-> & B4 & VP & P4)].
  { destruct (free_in l0 s4 _ [] ctx KCtx [] B4 ltac:(cnts) VC) as (s5 & E5 & B5 & K). rewrite E5. cbn [obind ctx_for free]. split; [split; [intros [k Q]; discriminate Q|lia]|]. intros r s' Q. injection Q as <- <-. apply END, B5. }
  remember (ob_next s3) as params eqn:HP. destruct (free_in l0 s4 _ [params] ctx KCtx [] B4 ltac:(cnts) VC) as (s5 & E5 & B5 & K). assert (N5 : ob_next s5 = ob_next s4) by (eapply free_next; [exact B4| |exact E5]; right; left; reflexivity). carry K. rewrite E5. cbn [obind]. unfold ctx_for.
  destruct (ob_new s5 KCtx) as [p s6] eqn:E6. pose proof (new_next _ _ _ _ E6) as N6. pose proof (proj1 K0) as RT5. destruct (new_step _ _ _ _ _ _ B5 E6) as [K [(-> & B6 & R6)|(-> & B6 & VC6 & R6)]]; carry K; replace (ob_ret _ _) with (ret s 4) in R6 by (rewrite RT5; unfold ret; f_equal; lia); cbn [obind].
  { destruct (free_in l0 s6 _ [] params KKey [] B6 ltac:(cnts) VP) as (s7 & E7 & B7 & K). rewrite E7. cbn [obind]. split; [split; [intros [k Q]; discriminate Q|lia]|]. intros r s' Q. injection Q as <- <-. apply END, B7. }
  remember (ob_next s5) as ctx2 eqn:HC2. destruct (share_in l0 s6 _ [params] ctx2 [params] KCtx [] B6 ltac:(cnts) VC6) as (s7 & E7 & B7 & V7 & K). { constructor; [|constructor]. eapply held_below; [exact B6|right; left; reflexivity|exact VP|cbn [level]; lia]. }
  assert (N7 : ob_next s7 = ob_next s6). { destruct (share_step l0 [params] s6 [ctx2; params] ctx2 KCtx []) as (s7' & E7' & _ & _ & _ & N7 & _); [exact B6|left; reflexivity|exact VC6| |]. { constructor; [|constructor]. eapply held_below; [exact B6|right; left; reflexivity|exact VP|cbn [level]; lia]. } rewrite E7 in E7'. injection E7' as <-. exact N7. }
  carry K. rewrite E7. cbn [obind app] in *. destruct (free_in l0 s7 _ [ctx2] params KKey [] B7 ltac:(cnts) VP) as (s8 & E8 & B8 & K). assert (N8 : ob_next s8 = ob_next s7) by (eapply free_next; [exact B7| |exact E8]; right; left; reflexivity). carry K. rewrite E8. cbn [obind].
  destruct (ob_call s8) as [z9 s9] eqn:E9. pose proof (call_next _ _ _ E9) as N9. pose proof (proj1 K0) as RT8. destruct (call_step _ _ _ _ _ B8 E9) as (K & B9 & Z9). carry K. replace (ob_ret _ _) with (ret s 5) in Z9 by (rewrite RT8; unfold ret; f_equal; lia).
  destruct (Z.eqb_spec z9 0) as [Q9|Q9].
  { destruct (FAIL s9 ctx2 _ B9 V7) as (s' & E & LV). rewrite E. split; [split; [intros [k Q]; discriminate Q|lia]|]. intros r s2' Q. injection Q as <- <-. exact LV. }
  destruct (ob_make s9 KKey) as [[z10 p] s10] eqn:E10. pose proof (proj1 K0) as RT9. destruct (make_step _ _ _ _ _ _ _ B9 E10) as (Z10 & N10 & K & D). carry K. replace (ob_ret _ _) with (ret s 6) in Z10 by (rewrite RT9; unfold ret; f_equal; lia).
  destruct (Z.eqb_spec z10 0) as [Q10|Q10].
  { destruct D as [(-> & B10 & _)|(_ & _ & _ & Q)]; [|lia]. destruct (FAIL s10 ctx2 _ B10 V7) as (s' & E & LV). rewrite E. split; [split; [intros [k Q]; discriminate Q|lia]|]. intros r s2' Q. injection Q as <- <-. exact LV. }
  destruct D as [(-> & B10 & P10)|(-> & B10 & VK & P10)].
  { cbn [evpkey_to_derbuf obind]. split; [split; [intros _; repeat split; lia|eauto]|]. intros r s' Q. discriminate Q. }
  remember (ob_next s9) as pkey eqn:HK. unfold evpkey_to_derbuf. destruct (view_at _ _ _ _ VK) as [rk EK]. rewrite EK. cbn [obind].
  destruct (ob_new s10 KBuf) as [b s11] eqn:E11. destruct (new_step _ _ _ _ _ _ B10 E11) as [K D]. carry K. cbn [obind].
  assert (D' : bl l0 s11 (ol b ++ [pkey; ctx2]) /\ out_view s11 b). { destruct D as [(-> & B11 & _)|(-> & B11 & VB & _)]; (split; [exact B11|]); [discriminate|]. intros x Q. injection Q as <-. exact VB. } destruct D' as [B11 VB]. clear D.
  destruct (free_in l0 s11 _ (ol b ++ [ctx2]) pkey KKey [] B11 ltac:(cnts) VK) as (s12 & E12 & B12 & K). pose proof (out_view_keeps _ _ _ _ VB K ltac:(intros y Q; rewrite Q; isin)) as VB12. carry K. rewrite E12. cbn [obind].
  destruct (free_in l0 s12 _ (ol b ++ []) ctx2 KCtx _ B12 ltac:(cnts) V7) as (s13 & E13 & B13 & K). pose proof (out_view_keeps _ _ _ _ VB12 K ltac:(intros y Q; rewrite Q; isin)) as VB13. rewrite E13. cbn [obind].
  split; [split; [intros [k Q]; discriminate Q|lia]|]. intros r s' Q. injection Q as <- <-. apply leaves_of; assumption.
Qed.

(** ** Certificates *)
Lemma calls_step : forall l0 n s L ok s', bl l0 s L -> calls n s = (ok, s') -> keeps s s' L /\ bl l0 s' L /\ (steady s -> ok = true).
Proof.
  intros l0. induction n as [|n IH]; intros s L ok s' B E; cbn [calls] in E; [injection E as <- <-; split; [apply keeps_refl|]; auto|].
  destruct (ob_call s) as [z s1] eqn:E1. destruct (call_step _ _ _ _ _ B E1) as (K & B1 & Z). destruct (Z.leb_spec z 0) as [Q|Q].
  - injection E as <- <-. split; [exact K|]. split; [exact B1|]. intros ST. specialize (ST (ob_next s)). lia.
  - destruct (IH s1 L ok s' B1 E) as (K2 & B2 & S). split; [exact (keeps_trans _ _ _ _ K K2)|]. split; [exact B2|]. intros ST. apply S. exact (steady_keeps _ _ _ K ST).
Qed.
Lemma lend_step : forall l0 n s L, bl l0 s L -> exists ok s', lend s n = Ok (ok, s') /\ keeps s s' L /\ bl l0 s' L /\ (steady s -> ok = true).
Proof.
  intros l0 n s L B. unfold lend. pose proof (keeps_refl s L) as K0. destruct (ob_new s KAsn) as [p s1] eqn:E1. destruct (new_step _ _ _ _ _ _ B E1) as [K [(-> & B1 & R)|(-> & B1 & V & R)]]; carry K.
  - exists false, s1. split; [reflexivity|]. split; [exact K0|]. split; [exact B1|]. intros ST. specialize (ST (ob_next s)). lia.
  - destruct (calls n s1) as [ok s2] eqn:E2. destruct (calls_step _ _ _ _ _ _ B1 E2) as (K & B2 & S). pose proof (steady_keeps _ _ _ K0) as S1. carry K. destruct (free_in l0 s2 _ L (ob_next s) KAsn [] B2 ltac:(cnts) V) as (s3 & E3 & B3 & K). carry K. rewrite E3. cbn [obind]. exists ok, s3. split; [reflexivity|]. split; [exact K0|]. split; [exact B3|]. auto.
Qed.
Lemma opt_lend_step : forall l0 n s L, bl l0 s L -> exists ok s', opt_lend s n = Ok (ok, s') /\ keeps s s' L /\ bl l0 s' L /\ (steady s -> ok = true).
Proof. intros l0 [n|] s L B; cbn [opt_lend]; [apply lend_step, B|]. exists true, s. split; [reflexivity|]. split; [apply keeps_refl|]. auto. Qed.
Lemma lend_time_step : forall l0 s L, bl l0 s L -> exists ok s', lend_time s = Ok (ok, s') /\ keeps s s' L /\ bl l0 s' L /\ (steady s -> ok = true).
Proof.
  intros l0 s L B. unfold lend_time. pose proof (keeps_refl s L) as K0. destruct (ob_new s KAsn) as [p s1] eqn:E1. destruct (new_step _ _ _ _ _ _ B E1) as [K [(-> & B1 & R)|(-> & B1 & V & R)]]; carry K.
  - destruct (calls 1 s1) as [ok s2] eqn:E2. destruct (calls_step _ _ _ _ _ _ B1 E2) as (K & B2 & S). carry K. cbn [free obind]. exists false, s2. split; [reflexivity|]. split; [exact K0|]. split; [exact B2|]. intros ST. specialize (ST (ob_next s)). lia.
  - destruct (calls 3 s1) as [ok s2] eqn:E2. destruct (calls_step _ _ _ _ _ _ B1 E2) as (K & B2 & S). pose proof (steady_keeps _ _ _ K0) as S1. carry K. destruct (free_in l0 s2 _ L (ob_next s) KAsn [] B2 ltac:(cnts) V) as (s3 & E3 & B3 & K). carry K. rewrite E3. cbn [obind]. exists ok, s3. split; [reflexivity|]. split; [exact K0|]. split; [exact B3|]. auto.
Qed.
Lemma set_meta_step : forall l0 m s L, bl l0 s L -> exists ok s', set_meta m s = Ok (ok, s') /\ keeps s s' L /\ bl l0 s' L /\ (steady s -> ok = one_end m).
Proof.
  intros l0 m s L B. unfold set_meta. pose proof (keeps_refl s L) as K0. assert (STOP : forall s1, keeps s s1 L -> bl l0 s1 L -> (steady s -> false = one_end m) -> exists ok s', Ok (false, s1) = Ok (ok, s') /\ keeps s s' L /\ bl l0 s' L /\ (steady s -> ok = one_end m)) by eauto 6.
  destruct (calls 1 s) as [ok s1] eqn:E1. destruct (calls_step _ _ _ _ _ _ B E1) as (K & B1 & S1). carry K. destruct ok; cbn [negb]; [|apply STOP; try assumption; intros ST; discriminate (S1 ST)].
  destruct (lend_step l0 2 s1 L B1) as (ok & s2 & E2 & K & B2 & S2). pose proof (steady_keeps _ _ _ K0) as T1. carry K. rewrite E2. cbn [obind]. destruct ok; cbn [negb]; [|apply STOP; try assumption; intros ST; discriminate (S2 (T1 ST))].
  destruct (calls 1 s2) as [ok s3] eqn:E3. destruct (calls_step _ _ _ _ _ _ B2 E3) as (K & B3 & S3). pose proof (steady_keeps _ _ _ K0) as T2. carry K. destruct ok; cbn [negb]; [|apply STOP; try assumption; intros ST; discriminate (S3 (T2 ST))].
  assert (X : exists ok s4, (if sh_absolute m then if sh_after m then Ok (false, s3) else lend_time s3 else Ok (calls 1 s3)) = Ok (ok, s4) /\ keeps s3 s4 L /\ bl l0 s4 L /\ (steady s3 -> ok = one_end m)).
  { unfold one_end. destruct (sh_absolute m); [destruct (sh_after m)|]; cbn [andb negb].
    - exists false, s3. split; [reflexivity|]. split; [apply keeps_refl|]. auto.
    - apply lend_time_step, B3.
    - destruct (calls 1 s3) as [ok s4] eqn:E4. destruct (calls_step _ _ _ _ _ _ B3 E4) as (K & B4 & S4). exists ok, s4. auto. }
  destruct X as (ok & s4 & E4 & K & B4 & S4). pose proof (steady_keeps _ _ _ K0) as T3. carry K. rewrite E4. cbn [obind]. destruct ok; cbn [negb]; [|apply STOP; try assumption; intros ST; apply S4, T3, ST].
  destruct (opt_lend_step l0 (sh_issuer m) s4 L B4) as (ok & s5 & E5 & K & B5 & S5). pose proof (steady_keeps _ _ _ K0) as T4. carry K. rewrite E5. cbn [obind]. destruct ok; cbn [negb]; [|apply STOP; try assumption; intros ST; discriminate (S5 (T4 ST))].
  destruct (opt_lend_step l0 (sh_subject m) s5 L B5) as (ok & s6 & E6 & K & B6 & S6). pose proof (steady_keeps _ _ _ K0) as T5. carry K. rewrite E6. cbn [obind]. destruct ok; cbn [negb]; [|apply STOP; try assumption; intros ST; discriminate (S6 (T5 ST))].
  destruct (sh_basic m).
  - destruct (lend_step l0 1 s6 L B6) as (ok & s7 & E7 & K & B7 & S7). pose proof (steady_keeps _ _ _ K0) as T6. carry K. exists ok, s7. split; [exact E7|]. split; [exact K0|]. split; [exact B7|]. intros ST. rewrite (S7 (T6 ST)). apply S4, T3, ST.
  - exists true, s6. split; [reflexivity|]. split; [exact K0|]. split; [exact B6|]. intros ST. apply S4, T3, ST.
Qed.
(** Nothing is undefined; what is not released is the certificate and the key when the
    key cannot be set. *)
Theorem cert_objects : forall m key s, exists r s', generate_cert m key s = Ok (r, s') /\ apart s s' /\
  (leaves s s' (ol r) \/ r = None /\ ~ steady s /\ exists x p, x <> p /\ ob_next s <= x /\ ob_next s <= p /\ ob_at s' x = Alive KCert 1 [] /\ ob_at s' p = Alive KKey 1 []) /\
  (steady s -> (r <> None <-> key = true /\ one_end m = true)).
Proof.
  intros m key s. unfold generate_cert. pose proof (bl_start s) as B. set (l0 := ob_list s) in *. pose proof (keeps_refl s []) as K0.
  assert (END : forall s', bl l0 s' [] -> apart s s' /\ leaves s s' []) by (intros s' B'; split; [eapply bl_apart; exact B'|]; apply bl_leaves; [exact B'|constructor]).
  destruct (ob_new s KCert) as [p s1] eqn:E1. destruct (new_step _ _ _ _ _ _ B E1) as [K [(-> & B1 & R)|(-> & B1 & V & R)]]; carry K.
  { exists None, s1. split; [reflexivity|]. destruct (END _ B1) as [A LV]. split; [exact A|]. split; [left; exact LV|]. intros ST. specialize (ST (ob_next s)). lia. }
  remember (ob_next s) as x eqn:HX. destruct (set_meta_step l0 m s1 _ B1) as (ok & s2 & E2 & K & B2 & S2). pose proof (steady_keeps _ _ _ K0) as T1. carry K. rewrite E2. cbn [obind].
  assert (FREE : forall s3, bl l0 s3 [x] -> view s3 x = Some (KCert, []) -> exists s', obind (free KCert s3 (Some x)) (fun s => Ok (None (A := nat), s)) = Ok (None, s') /\ apart s s' /\ leaves s s' []).
  { intros s3 B3 V3. destruct (free_in l0 s3 _ [] x KCert [] B3 ltac:(cnts) V3) as (s4 & E4 & B4 & K). rewrite E4. cbn [obind]. exists s4. split; [reflexivity|]. apply END, B4. }
  destruct ok; cbn [negb].
  2:{ destruct (FREE s2 B2 V) as (s' & E & A & LV). exists None, s'. split; [exact E|]. split; [exact A|]. split; [left; exact LV|]. intros ST. rewrite <- (S2 (T1 ST)). split; [intros []; reflexivity|intros [_ Q]; discriminate Q]. }
  destruct (parse KKey (if key then Some tt else None) s2) as [p s3] eqn:E3. destruct (parse_step _ _ _ _ _ _ _ _ B2 E3) as [K P]. pose proof (steady_keeps _ _ _ K0) as T2. carry K. destruct p as [[u pkey]|].
  2:{ destruct P as [B3 P]. destruct (FREE s3 B3 V) as (s' & E & A & LV). exists None, s'. split; [exact E|]. split; [exact A|]. split; [left; exact LV|]. intros ST. specialize (P (T2 ST)). destruct key; [discriminate P|]. split; [intros []; reflexivity|intros [Q _]; discriminate Q]. }
  destruct P as (EK & B3 & VK). assert (KT : key = true) by (destruct key; [reflexivity|discriminate EK]).
  destruct (calls 1 s3) as [ok s4] eqn:E4. destruct (calls_step _ _ _ _ _ _ B3 E4) as (K & B4 & S4). pose proof (steady_keeps _ _ _ K0) as T3. carry K. destruct ok; cbn [negb].
  2:{ exists None, s4. split; [reflexivity|]. split; [eapply bl_apart; exact B4|]. split; [|intros ST; discriminate (S4 (T3 ST))]. right. split; [reflexivity|]. split; [intros ST; discriminate (S4 (T3 ST))|].
      assert (ROOT : forall y k r l, ob_next s <= y -> ob_at s4 y = Alive k r l -> y = x \/ y = pkey).
      { intros y k r l L E. destruct B4 as (BB & _ & _). destruct (rooted _ _ _ BB 2 y k r l ltac:(lia) L E) as (t & G & LT & RT). apply cnt_In in G. assert (KT0 : kids (ob_at s4 t) = []) by (destruct G as [<-|[<-|[]]]; [destruct (view_at _ _ _ _ VK) as [r' ->]|destruct (view_at _ _ _ _ V) as [r' ->]]; reflexivity).
        assert (Q : forall a b, reach s4 a b -> kids (ob_at s4 a) = [] -> b = a) by (clear; intros a b H; induction H as [|x y z H IH I]; [reflexivity|]; intros Q; rewrite (IH Q), Q in I; destruct I). rewrite (Q _ _ RT KT0). destruct G as [<-|[<-|[]]]; auto. }
      assert (NXP : x <> pkey) by (intros ->; rewrite V in VK; discriminate VK). destruct B4 as (BB & FF & _). pose proof (Forall_inv FF) as LP. cbv beta in LP. pose proof (Forall_inv (Forall_inv_tail FF)) as LX. cbv beta in LX.
      destruct (view_at _ _ _ _ V) as [rx EX]. destruct (view_at _ _ _ _ VK) as [rp EP].
      assert (H0 : forall y, (holders (skipn (List.length l0) (ob_list s4)) y = 0)%Z). { intros y. destruct (Z.eq_dec (holders (skipn (List.length l0) (ob_list s4)) y) 0) as [Q|Q]; [exact Q|]. pose proof (holders_pos (skipn (List.length l0) (ob_list s4)) y). destruct (held_kid _ _ _ y BB ltac:(lia)) as (z & LZ & IZ). destruct (ob_at s4 z) as [kz rz lz|] eqn:EZ; [|destruct IZ].
        destruct (ROOT z _ _ _ LZ EZ) as [->| ->]; [rewrite EX in EZ|rewrite EP in EZ]; injection EZ as <- <- <-; destruct IZ. }
      pose proof (bal_refs _ _ _ BB x LX) as RX. pose proof (bal_refs _ _ _ BB pkey LP) as RP. rewrite EX in RX. rewrite EP in RP. rewrite H0 in RX, RP. cbn [refs] in RX, RP. rewrite !cnt_cons, !cnt_nil in RX, RP. rewrite Nat.eqb_refl in RX, RP. destruct (Nat.eqb_spec pkey x) as [Q|_]; [congruence|]. destruct (Nat.eqb_spec x pkey) as [Q|_]; [congruence|].
      exists x, pkey. assert (rx = 1) by lia. assert (rp = 1) by lia. subst rx rp. split; [exact NXP|]. split; [lia|]. split; [rewrite HX; exact LP|]. auto. }
  destruct (share_in l0 s4 _ [pkey] x [pkey] KCert [] B4 ltac:(cnts) V) as (s5 & E5 & B5 & V5 & K). { constructor; [|constructor]. eapply held_below; [exact B4|left; reflexivity|exact VK|cbn [level]; lia]. }
  pose proof (steady_keeps _ _ _ K0) as T4. carry K. rewrite E5. cbn [obind app] in *. destruct (calls 2 s5) as [ok s6] eqn:E6. destruct (calls_step _ _ _ _ _ _ B5 E6) as (K & B6 & S6). pose proof (steady_keeps _ _ _ K0) as T5. carry K. destruct ok; cbn [negb].
  2:{ destruct (free_in l0 s6 _ [x] pkey KKey [] B6 ltac:(cnts) VK) as (s7 & E7 & B7 & K). carry K. rewrite E7. cbn [obind]. destruct (free_in l0 s7 _ [] x KCert _ B7 ltac:(cnts) V5) as (s8 & E8 & B8 & K). rewrite E8. cbn [obind]. exists None, s8. split; [reflexivity|]. destruct (END _ B8) as [A LV]. split; [exact A|]. split; [left; exact LV|]. intros ST. discriminate (S6 (T5 ST)). }
  destruct (ob_new s6 KBuf) as [b s7] eqn:E7. destruct (new_step _ _ _ _ _ _ B6 E7) as [K D]. pose proof (steady_keeps _ _ _ K0) as T6. carry K.
  assert (D' : bl l0 s7 (ol b ++ [x; pkey]) /\ out_view s7 b /\ (steady s6 -> b <> None)). { destruct D as [(-> & B7 & RR)|(-> & B7 & VB & _)]; (split; [exact B7|]); [split; [discriminate|intros ST; specialize (ST (ob_next s6)); lia]|]. split; [|discriminate]. intros y Q. injection Q as <-. exact VB. } destruct D' as (B7 & VB & BN). clear D.
  destruct (free_in l0 s7 _ (ol b ++ [x]) pkey KKey [] B7 ltac:(cnts) VK) as (s8 & E8 & B8 & K). pose proof (out_view_keeps _ _ _ _ VB K ltac:(intros y Q; rewrite Q; isin)) as VB8. carry K. rewrite E8. cbn [obind].
  destruct (free_in l0 s8 _ (ol b ++ []) x KCert _ B8 ltac:(cnts) V5) as (s9 & E9 & B9 & K). pose proof (out_view_keeps _ _ _ _ VB8 K ltac:(intros y Q; rewrite Q; isin)) as VB9. rewrite E9. cbn [obind].
  exists b, s9. split; [reflexivity|]. split; [eapply bl_apart; exact B9|]. split; [left; apply leaves_of; assumption|]. intros ST. split; [intros _; split; [exact KT|symmetry; apply S2, T1, ST]|intros _; apply BN, T6, ST].
Qed.
(** The buffer [old] is the caller's and comes last among what is there. *)
Theorem sign_cert_objects : forall key ca cert l f, let s := mk_objs (l ++ [Alive KBuf 1 []]) f in
  exists r s', sign_cert key ca cert (List.length l) s = Ok (r, s') /\ leaves (mk_objs l f) s' [match r with Some b => b | None => List.length l end] /\
    (r <> Some (List.length l)) /\ (steady s -> (r <> None <-> key = true /\ ca = true /\ cert = true)).
Proof.
  intros key ca cert l f s. unfold sign_cert. set (s0 := mk_objs l f). set (old := List.length l). assert (B : bl l s [old] /\ view s old = Some (KBuf, [])) by (exact (alive_step l s0 [] KBuf (bl_start s0))). destruct B as [B VO]. pose proof (keeps_refl s [old]) as K0.
  assert (LTO : old < ob_next s) by (unfold s, ob_next, old; cbn [ob_list]; rewrite app_length; cbn [List.length]; lia).
  assert (END : forall s' y, bl l s' [y] -> view s' y = Some (KBuf, []) -> leaves s0 s' [y]) by (intros s' y B' V'; apply bl_leaves; [exact B'|]; constructor; [exact V'|constructor]).
  destruct (parse KKey (if key then Some tt else None) s) as [p s1] eqn:E1. destruct (parse_step _ _ _ _ _ _ _ _ B E1) as [K P]. carry K. destruct p as [[u pkey]|].
  2:{ destruct P as [B1 P]. exists None, s1. split; [reflexivity|]. split; [apply END; assumption|]. split; [discriminate|]. intros ST. specialize (P ST). destruct key; [discriminate P|]. split; [intros []; reflexivity|intros [Q _]; discriminate Q]. }
  destruct P as (EK & B1 & VK). assert (KT : key = true) by (destruct key; [reflexivity|discriminate EK]).
  destruct (parse KCert (if ca then Some tt else None) s1) as [p s2] eqn:E2. destruct (parse_step _ _ _ _ _ _ _ _ B1 E2) as [K P]. pose proof (steady_keeps _ _ _ K0) as T1. carry K. destruct p as [[u2 xca]|].
  2:{ destruct P as [B2 P]. destruct (free_in l s2 _ [old] pkey KKey [] B2 ltac:(cnts) VK) as (s3 & E3 & B3 & K). carry K. rewrite E3. cbn [obind]. exists None, s3. split; [reflexivity|]. split; [apply END; assumption|]. split; [discriminate|]. intros ST. specialize (P (T1 ST)). destruct ca; [discriminate P|]. split; [intros []; reflexivity|intros (_ & Q & _); discriminate Q]. }
  destruct P as (EC & B2 & VC). assert (CT : ca = true) by (destruct ca; [reflexivity|discriminate EC]).
  destruct (parse KCert (if cert then Some tt else None) s2) as [p s3] eqn:E3. destruct (parse_step _ _ _ _ _ _ _ _ B2 E3) as [K P]. pose proof (steady_keeps _ _ _ K0) as T2. carry K. destruct p as [[u3 x]|].
  2:{ destruct P as [B3 P]. destruct (free_in l s3 _ [pkey; old] xca KCert [] B3 ltac:(cnts) VC) as (s4 & E4 & B4 & K). carry K. rewrite E4. cbn [obind]. destruct (free_in l s4 _ [old] pkey KKey [] B4 ltac:(cnts) VK) as (s5 & E5 & B5 & K). carry K. rewrite E5. cbn [obind]. exists None, s5. split; [reflexivity|]. split; [apply END; assumption|]. split; [discriminate|]. intros ST. specialize (P (T2 ST)). destruct cert; [discriminate P|]. split; [intros []; reflexivity|intros (_ & _ & Q); discriminate Q]. }
  destruct P as (EX & B3 & VX). assert (XT : cert = true) by (destruct cert; [reflexivity|discriminate EX]).
  destruct (calls 4 s3) as [ok s4] eqn:E4. destruct (calls_step _ _ _ _ _ _ B3 E4) as (K & B4 & S4). pose proof (steady_keeps _ _ _ K0) as T3. carry K.
  destruct (if ok then ob_new s4 KBuf else (None, s4)) as [b s5] eqn:E5.
  assert (X : keeps s4 s5 [x; xca; pkey; old] /\ bl l s5 (ol b ++ [x; xca; pkey; old]) /\ out_view s5 b /\ (forall y, b = Some y -> y <> old) /\ (steady s4 -> ok = true -> b <> None)).
  { destruct ok; [|injection E5 as <- <-; split; [apply keeps_refl|]; split; [exact B4|]; split; [discriminate|]; split; [discriminate|discriminate]]. destruct (new_step _ _ _ _ _ _ B4 E5) as [K [(-> & B5 & RR)|(-> & B5 & VB & _)]]; (split; [exact K|]; split; [exact B5|]).
    - split; [discriminate|]. split; [discriminate|]. intros ST. specialize (ST (ob_next s4)). lia.
    - split; [intros y Q; injection Q as <-; exact VB|]. split; [|discriminate]. intros y Q. injection Q as <-. intros Q. pose proof (proj1 (proj2 K0)). lia. }
  destruct X as (K & B5 & VB & NO & BN). pose proof (steady_keeps _ _ _ K0) as T4. carry K.
  set (left := match b with Some y => y | None => old end).
  assert (X : exists s6, free KBuf s5 (match b with None => None | Some _ => Some old end) = Ok s6 /\ keeps s5 s6 [left; x; xca; pkey] /\ bl l s6 [left; x; xca; pkey]).
  { unfold left. destruct b as [b|]; cbn [ol app] in B5.
    - destruct (free_in l s5 _ [b; x; xca; pkey] old KBuf [] B5 ltac:(cnts) VO) as (s6 & E6 & B6 & K6). eauto.
    - exists s5. split; [reflexivity|]. split; [apply keeps_refl|]. rot B5. }
  assert (VL : view s5 left = Some (KBuf, [])) by (unfold left; destruct b as [b|]; [apply VB; reflexivity|exact VO]).
  destruct X as (s6 & E6 & K & B6). rewrite E6. cbn [obind]. clear VO. pose proof (keeps_refl s []) as K0'. assert (ST6 : steady s -> steady s5) by (exact (steady_keeps _ _ _ K0)). clear K0 K0'. carry K.
  destruct (free_in l s6 _ [left; x; pkey] xca KCert [] B6 ltac:(cnts) VC) as (s7 & E7 & B7 & K). carry K. rewrite E7. cbn [obind].
  destruct (free_in l s7 _ [left; pkey] x KCert [] B7 ltac:(cnts) VX) as (s8 & E8 & B8 & K). carry K. rewrite E8. cbn [obind].
  destruct (free_in l s8 _ [left] pkey KKey [] B8 ltac:(cnts) VK) as (s9 & E9 & B9 & K). carry K. rewrite E9. cbn [obind].
  exists b, s9. split; [reflexivity|]. split; [exact (END s9 left B9 VL)|]. split; [intros Q; exact (NO old Q eq_refl)|].
  intros ST. split; [auto|]. intros _. apply BN; [exact (T4 ST)|exact (S4 (T3 ST))].
Qed.
