(** Proofs about OpenSSL objects: the certificates of the signers. *)
From Verif Require Import Base PBase MBase64 MSerialize MOs MVoucher MCrypto MObjects SObjects PObjects PObjects2 PObjects3 PObjects4 PObjects5.
Open Scope nat_scope.

(** ** References taken that nobody gave *)
Definition plus (G : nat -> Z) (l : list nat) : nat -> Z := fun y => (G y + cnt l y)%Z.
Lemma new_bal : forall l0 s G k p s', bal l0 s G -> ob_new s k = (p, s') -> bal l0 s' (plus G (ol p)) /\ (forall y, kids (ob_at s' y) = kids (ob_at s y)) /\ ob_ret s' = ob_ret s /\ ob_next s' = S (ob_next s) /\
  (forall x, p = Some x -> x = ob_next s /\ ob_at s' x = Alive k 1 []) /\ (p = None -> (ob_ret s (ob_next s) <= 0)%Z) /\ (forall y, y < ob_next s -> ob_at s' y = ob_at s y).
Proof.
  intros l0 s G k p s' B E. unfold ob_new in E. assert (KEEP : forall v, kids v = [] -> forall y, kids (ob_at (ob_add s v) y) = kids (ob_at s y)).
  { intros v KV y. rewrite add_at. destruct (Nat.eqb_spec y (ob_next s)) as [->|N]; [|reflexivity]. rewrite KV. unfold ob_at, ob_next. rewrite nth_overflow by lia. reflexivity. }
  assert (LOW : forall v y, y < ob_next s -> ob_at (ob_add s v) y = ob_at s y) by (intros v y L; rewrite add_at; destruct (Nat.eqb_spec y (ob_next s)); [lia|reflexivity]).
  assert (NX : forall v, ob_next (ob_add s v) = S (ob_next s)) by (intros v; unfold ob_next, ob_add; cbn [ob_list]; rewrite app_length; cbn [List.length]; lia).
  destruct (Z.leb_spec (ob_ret s (ob_next s)) 0) as [R|R]; injection E as <- <-.
  - split; [eapply bal_ext; [apply bal_add; [exact B|left; reflexivity]|]; intros y _; unfold plus; cbn [ol refs]; rewrite cnt_nil; destruct (y =? ob_next s); lia|]. split; [apply KEEP; reflexivity|]. split; [reflexivity|]. split; [apply NX|]. split; [discriminate|]. split; [auto|apply LOW].
  - split; [eapply bal_ext; [apply bal_add; [exact B|right; eauto]|]; intros y _; unfold plus; cbn [ol refs]; rewrite cnt_cons, cnt_nil, (Nat.eqb_sym y); destruct (ob_next s =? y); lia|]. split; [apply KEEP; reflexivity|]. split; [reflexivity|]. split; [apply NX|]. split; [|split; [discriminate|apply LOW]].
    intros x Q. injection Q as <-. split; [reflexivity|]. rewrite add_at, Nat.eqb_refl. reflexivity.
Qed.
Lemma free_bal : forall l0 s G k p s', bal l0 s G -> (forall x, p = Some x -> List.length l0 <= x) -> free k s p = Ok s' -> bal l0 s' (minus G (ol p)) /\ less s s'.
Proof.
  intros l0 s G k [x|] s' B L E; cbn [free] in E.
  - destruct (ob_at s x) as [k' r l|]; [|discriminate E]. destruct (kind_eqb k k'); [|discriminate E]. eapply release_bal; eauto.
  - injection E as <-. split; [|apply less_refl]. eapply bal_ext; [exact B|]. intros y _. unfold minus. cbn [ol]. rewrite cnt_nil. lia.
Qed.
Definition each_hold (st : nat) := fix each (l : list nat) (s : objs) : outcome objs := match l with [] => Ok s | y :: l => obind (hold s st y) (fun s => each l s) end.
Lemma each_hold_bal : forall l0 xs s G st r l, bal l0 s G -> List.length l0 <= st -> ob_at s st = Alive KStack r l -> Forall (fun x => List.length l0 <= x < ob_next s /\ exists k rx lx, ob_at s x = Alive k rx lx /\ level k < 2) xs ->
  exists s', each_hold st xs s = Ok s' /\ bal l0 s' (minus G xs) /\ ob_next s' = ob_next s /\ ob_ret s' = ob_ret s /\ (forall y, y <> st -> ob_at s' y = ob_at s y).
Proof.
  intros l0. induction xs as [|x xs IH]; intros s G st r l B L E F; cbn [each_hold].
  - exists s. split; [reflexivity|]. split; [eapply bal_ext; [exact B|]; intros y _; unfold minus; rewrite cnt_nil; lia|]. auto.
  - inversion F as [|? ? [LX (k & rx & lx & EX & LV)] F2]; subst. destruct (hold_bal l0 s G st x KStack r l B L E LX) as (s1 & E1 & B1 & N1 & R1 & ES1 & A1). { intros k' r' l' Q. rewrite EX in Q. injection Q as <- <- <-. exact LV. }
    rewrite E1. cbn [obind]. destruct (IH s1 _ st r (l ++ [x]) B1 L ES1) as (s2 & E2 & B2 & N2 & R2 & A2).
    { eapply Forall_impl; [|exact F2]. intros y [LY (ky & ry & ly & EY & LVY)]. split; [lia|]. exists ky, ry, ly. split; [|exact LVY]. rewrite A1; [exact EY|]. intros ->. rewrite E in EY. injection EY as <- <- <-. cbn [level] in LVY. lia. }
    exists s2. split; [exact E2|]. split; [eapply bal_ext; [exact B2|]; intros y _; unfold minus; rewrite !cnt_cons, cnt_nil; lia|]. split; [congruence|]. split; [congruence|]. intros y N. rewrite A2, A1 by exact N. reflexivity.
Qed.
(** The list holds only what was made after [m]. *)
Definition own_list (s : objs) (l m : nat) : Prop := (forall k r ids, ob_at s l = Alive k r ids -> k = KList) /\ forall y, In y (kids (ob_at s l)) -> m <= y /\ kids (ob_at s y) = [].
Lemma less_kids : forall s s' y, less s s' -> kids (ob_at s' y) = kids (ob_at s y) \/ kids (ob_at s' y) = [].
Proof. intros s s' y (_ & _ & A). destruct (ob_at s' y) as [k r l|] eqn:E; [|right; reflexivity]. destruct (A _ _ _ _ E) as [r' ->]. left. reflexivity. Qed.
Lemma own_less : forall s s' l m, own_list s l m -> less s s' -> own_list s' l m.
Proof.
  intros s s' l m [K O] LS. split.
  - intros k r ids E. destruct LS as (_ & _ & A). destruct (A _ _ _ _ E) as [r' E']. eauto.
  - intros y I. destruct (less_kids _ _ l LS) as [Q|Q]; rewrite Q in I; [|destruct I]. destruct (O y I) as [M KY]. split; [exact M|]. destruct (less_kids _ _ y LS) as [->| ->]; auto.
Qed.
Lemma own_same : forall s s' l m, own_list s l m -> (forall y, kids (ob_at s' y) = kids (ob_at s y)) -> ob_at s' l = ob_at s l -> own_list s' l m.
Proof. intros s s' l m [K O] Q QL. split; [rewrite QL; exact K|]. intros y I. rewrite !Q in *. auto. Qed.
Lemma signer_loop_bal : forall o l0 xs s G l m acc r s', bal l0 s G -> List.length l0 <= l < ob_next s -> m <= ob_next s -> own_list s l m -> signer_loop o xs s l acc = Ok (r, s') ->
  bal l0 s' G /\ own_list s' l m /\ (forall y, y <> l -> kids (ob_at s' y) = kids (ob_at s y) \/ kids (ob_at s' y) = []) /\ ob_ret s' = ob_ret s /\ ob_next s <= ob_next s'.
Proof.
  intros o l0. induction xs as [|v xs IH]; intros s G l m acc r s' B LL MN OW E; cbn [signer_loop] in E.
  - injection E as <- <-. auto 6.
  - unfold cert_to_derbuf, parse in E. destruct (i2d_x509 o v) as [d|]; [|injection E as <- <-; auto 6]. destruct (ob_new s KBuf) as [p s1] eqn:E1. destruct (new_bal _ _ _ _ _ _ B E1) as (B1 & Q1 & R1 & N1 & P1 & _ & L1).
    destruct p as [b|]; [|injection E as <- <-; split; [eapply bal_ext; [exact B1|]; intros y _; unfold plus; cbn [ol]; rewrite cnt_nil; lia|]; split; [eapply own_same; [exact OW|exact Q1|apply L1; lia]|]; split; [intros y _; left; apply Q1|]; split; [exact R1|lia]].
    destruct (P1 b eq_refl) as [EB AB]. pose proof (own_same _ _ _ _ OW Q1 (L1 l ltac:(lia))) as OW1.
    unfold push_copy in E. destruct (ob_new s1 KBuf) as [p2 s2] eqn:E2. destruct (new_bal _ _ _ _ _ _ B1 E2) as (B2 & Q2 & R2 & N2 & P2 & _ & L2). pose proof (own_same _ _ _ _ OW1 Q2 (L2 l ltac:(lia))) as OW2. pose proof (bal_len _ _ _ B) as BL. fold (ob_next s) in BL.
    assert (LB : forall x, Some b = Some x -> List.length l0 <= x) by (intros x Q; injection Q as <-; lia).
    destruct p2 as [b2|].
    + destruct (P2 b2 eq_refl) as [EB2 AB2]. destruct (hold s2 l b2) as [s3|] eqn:E3; [|discriminate E]. pose proof E3 as E3'. unfold hold in E3'. destruct (ob_at s2 l) as [kl rl ids|] eqn:EL; [|discriminate E3']. clear E3'. pose proof (proj1 OW2 _ _ _ EL) as ->.
      destruct (hold_bal l0 s2 _ l b2 KList rl ids B2 (proj1 LL) EL ltac:(lia)) as (s3' & E3' & B3 & N3 & R3 & EL3 & A3). { intros k' r' l' Q. rewrite AB2 in Q. injection Q as <- <- <-. cbn [level]. lia. } rewrite E3 in E3'. injection E3' as <-.
      cbn [obind] in E. replace (0 <? 0)%Z with false in E by reflexivity. destruct (free KBuf s3 (Some b)) as [s4|] eqn:E4; [|discriminate E]. cbn [obind] in E. destruct (free_bal _ _ _ _ _ _ B3 LB E4) as [B4 L4].
      assert (OW3 : own_list s3 l m).
      { split; [intros k r0 ids0 Q; rewrite EL3 in Q; injection Q as <- _ _; reflexivity|]. rewrite EL3. cbn [kids]. intros y I. apply in_app_or in I. destruct I as [I|[<-|[]]].
        - assert (I2 : In y (kids (ob_at s2 l))) by (rewrite EL; exact I). destruct (proj2 OW2 y I2) as [M KY]. split; [exact M|]. destruct (Nat.eq_dec y l) as [->|N]; [|rewrite A3 by exact N; exact KY]. rewrite EL in KY. cbn [kids] in KY. rewrite KY in I. destruct I.
        - split; [lia|]. rewrite A3 by lia. rewrite AB2. reflexivity. }
      assert (B4' : bal l0 s4 G). { eapply bal_ext; [exact B4|]. intros y _. unfold minus, plus. cbn [ol]. lia. }
      pose proof L4 as (N4 & R4 & _). destruct (IH s4 G l m _ r s' B4' ltac:(lia) ltac:(lia) (own_less _ _ _ _ OW3 L4) E) as (B5 & OW5 & K5 & R5 & N5). split; [exact B5|]. split; [exact OW5|]. split; [|split; [congruence|lia]].
      intros y N. destruct (K5 y N) as [->| ->]; [|right; reflexivity]. destruct (less_kids _ _ y L4) as [->| ->]; [|right; reflexivity]. left. rewrite A3, Q2, Q1 by exact N. reflexivity.
    + cbn [obind] in E. replace (-1 <? 0)%Z with true in E by reflexivity. destruct (free KBuf s2 (Some b)) as [s4|] eqn:E4; [|discriminate E]. cbn [obind] in E. injection E as <- <-. destruct (free_bal _ _ _ _ _ _ B2 LB E4) as [B4 L4]. pose proof L4 as (N4 & R4 & _).
      split; [eapply bal_ext; [exact B4|]; intros y _; unfold minus, plus; cbn [ol]; rewrite cnt_nil; lia|]. split; [exact (own_less _ _ _ _ OW2 L4)|]. split; [|split; [congruence|lia]].
      intros y N. destruct (less_kids _ _ y L4) as [->| ->]; [|right; reflexivity]. left. rewrite Q2, Q1. reflexivity.
Qed.
Definition list_of (r : option (option (certlist * nat))) : option nat := match r with Some (Some (_, l)) => Some l | _ => None end.
(** After the extraction the references of the signers are missing. *)
Lemma exatract_bal : forall o l0 x xs signers s G r s', bal l0 s G -> steady s -> Forall (below s l0 2) signers -> exatract o (Some (x :: xs)) signers s = Ok (r, s') ->
  bal l0 s' (minus (plus G (ol (list_of r))) signers) /\ (forall l, list_of r = Some l -> ob_next s <= l /\ own_list s' l (ob_next s)) /\ (forall y, y < ob_next s -> kids (ob_at s' y) = kids (ob_at s y) \/ kids (ob_at s' y) = []).
Proof.
  intros o l0 x xs signers s G r s' B ST FB E. cbn [exatract] in E. destruct (ob_new s KStack) as [p s1] eqn:E1. destruct (new_bal _ _ _ _ _ _ B E1) as (B1 & Q1 & R1 & N1 & P1 & F1 & L1). pose proof (bal_len _ _ _ B) as BL. fold (ob_next s) in BL.
  destruct p as [st|]; [|specialize (F1 eq_refl); specialize (ST (ob_next s)); lia]. destruct (P1 st eq_refl) as [ES AS]. fold (each_hold st) in E.
  assert (FB1 : Forall (fun x => List.length l0 <= x < ob_next s1 /\ exists k rx lx, ob_at s1 x = Alive k rx lx /\ level k < 2) signers).
  { eapply Forall_impl; [|exact FB]. intros y [LY (k & l & V & LV)]. destruct (view_at _ _ _ _ V) as [ry EY]. pose proof (alive_lt _ _ _ _ _ EY). split; [lia|]. exists k, ry, l. rewrite L1 by assumption. auto. }
  destruct (each_hold_bal l0 signers s1 _ st 1 [] B1 ltac:(lia) AS FB1) as (s2 & E2 & B2 & N2 & R2 & A2). rewrite E2 in E. cbn [obind] in E.
  assert (K2 : forall y, y <> st -> kids (ob_at s2 y) = kids (ob_at s y)) by (intros y N; rewrite A2, Q1 by exact N; reflexivity).
  destruct (ob_new s2 KList) as [p s3] eqn:E3. destruct (new_bal _ _ _ _ _ _ B2 E3) as (B3 & Q3 & R3 & N3 & P3 & F3 & L3).
  destruct p as [l|]; [|specialize (F3 eq_refl); specialize (ST (ob_next s2)); rewrite R2, R1 in F3; lia]. destruct (P3 l eq_refl) as [EL AL].
  destruct (signer_loop o (x :: xs) s3 l []) as [[r4 s4]|] eqn:E4; [|discriminate E]. cbn [obind] in E.
  assert (OW3 : own_list s3 l (ob_next s)). { split; [intros k r0 ids Q; rewrite AL in Q; injection Q as <- _ _; reflexivity|]. rewrite AL. intros y []. }
  destruct (signer_loop_bal o l0 _ s3 _ l (ob_next s) [] r4 s4 B3 ltac:(lia) ltac:(lia) OW3 E4) as (B4 & OW4 & K4 & R4 & N4).
  assert (LS : forall y, Some st = Some y -> List.length l0 <= y) by (intros y Q; injection Q as <-; lia). assert (LLL : forall y, Some l = Some y -> List.length l0 <= y) by (intros y Q; injection Q as <-; lia).
  assert (KK : forall y, y < ob_next s -> kids (ob_at s4 y) = kids (ob_at s y) \/ kids (ob_at s4 y) = []) by (intros y L; destruct (K4 y ltac:(lia)) as [->| ->]; [left; rewrite Q3, K2 by lia; reflexivity|right; reflexivity]).
  destruct r4 as [ds|].
  - destruct (free KStack s4 (Some st)) as [s5|] eqn:E5; [|discriminate E]. cbn [obind] in E. injection E as <- <-. destruct (free_bal _ _ _ _ _ _ B4 LS E5) as [B5 L5]. split; [|split].
    + eapply bal_ext; [exact B5|]. intros y _. unfold minus, plus. cbn [ol list_of]. lia.
    + cbn [list_of]. intros l' Q. injection Q as <-. split; [lia|]. exact (own_less _ _ _ _ OW4 L5).
    + intros y L. destruct (less_kids _ _ y L5) as [->| ->]; [apply KK, L|right; reflexivity].
  - destruct (free KList s4 (Some l)) as [s5|] eqn:E5; [|discriminate E]. cbn [obind] in E. destruct (free_bal _ _ _ _ _ _ B4 LLL E5) as [B5 L5]. destruct (free KStack s5 (Some st)) as [s6|] eqn:E6; [|discriminate E]. cbn [obind] in E. injection E as <- <-. destruct (free_bal _ _ _ _ _ _ B5 LS E6) as [B6 L6]. split; [|split].
    + eapply bal_ext; [exact B6|]. intros y _. unfold minus, plus. cbn [ol list_of]. rewrite cnt_nil. lia.
    + discriminate.
    + intros y L. destruct (less_kids _ _ y L6) as [->| ->]; [|right; reflexivity]. destruct (less_kids _ _ y L5) as [->| ->]; [apply KK, L|right; reflexivity].
Qed.
Lemma leave_bal : forall A l0 s G mem stack content store ptrs (a : A) r s', bal l0 s G -> (forall x, In x (ol mem ++ ol stack ++ content :: ol store ++ ol ptrs) -> List.length l0 <= x) -> leave mem stack content store ptrs a s = Ok (r, s') ->
  bal l0 s' (minus G (ol mem ++ ol stack ++ content :: ol store ++ ol ptrs)) /\ less s s' /\ r = a.
Proof.
  intros A l0 s G mem stack content store ptrs a r s' B L E. unfold leave, free_x509_store in E.
  destruct (free KBio s mem) as [s1|] eqn:E1; [|discriminate E]. cbn [obind] in E. destruct (free_bal l0 s _ KBio mem s1 B ltac:(intros x Q; subst mem; apply L; isin) E1) as [B1 L1].
  destruct (free KStack s1 stack) as [s2|] eqn:E2; [|discriminate E]. cbn [obind] in E. destruct (free_bal l0 s1 _ KStack stack s2 B1 ltac:(intros x Q; subst stack; apply L; isin) E2) as [B2 L2].
  destruct (free KCms s2 (Some content)) as [s3|] eqn:E3; [|discriminate E]. cbn [obind] in E. destruct (free_bal l0 s2 _ KCms (Some content) s3 B2 ltac:(intros x Q; injection Q as <-; apply L; isin) E3) as [B3 L3].
  destruct (free KStore s3 store) as [s4|] eqn:E4; [|discriminate E]. cbn [obind] in E. destruct (free_bal l0 s3 _ KStore store s4 B3 ltac:(intros x Q; subst store; apply L; isin) E4) as [B4 L4].
  destruct (free KPtrs s4 ptrs) as [s5|] eqn:E5; [|discriminate E]. cbn [obind] in E. destruct (free_bal l0 s4 _ KPtrs ptrs s5 B4 ltac:(intros x Q; subst ptrs; apply L; isin) E5) as [B5 L5]. injection E as <- <-.
  split; [|split; [|reflexivity]].
  - eapply bal_ext; [exact B5|]. intros y _. unfold minus. repeat rewrite ?cnt_app, ?cnt_cons. cbn [ol]. rewrite cnt_cons, cnt_nil. lia.
  - exact (less_trans _ _ _ L1 (less_trans _ _ _ L2 (less_trans _ _ _ L3 (less_trans _ _ _ L4 L5)))).
Qed.
(** Nothing in use can hold the signers after that. *)
Lemma debt_absurd : forall l0 s (b l : option nat) m x0 signers G, bal l0 s G -> (forall y, G y = (cnt (ol b) y + cnt (ol l) y - cnt signers y)%Z) -> In x0 signers -> List.length l0 <= x0 -> x0 < m ->
  (forall y, b = Some y -> kids (ob_at s y) = [] /\ x0 <> y) -> (forall y, l = Some y -> own_list s y m /\ x0 <> y) -> False.
Proof.
  intros l0 s b l m x0 signers G B EG I L0 LM HB HL.
  assert (GX : (G x0 < 0)%Z). { rewrite EG. apply cnt_In in I. assert (C : forall p, (forall y, p = Some y -> x0 <> y) -> cnt (ol p) x0 = 0%Z) by (intros [y|] H; cbn [ol]; [rewrite cnt_cons, cnt_nil; destruct (Nat.eqb_spec y x0) as [->|N]; [destruct (H x0 eq_refl eq_refl)|reflexivity]|reflexivity]). rewrite (C b), (C l); [lia|intros y Q; apply HL, Q|intros y Q; apply HB, Q]. }
  pose proof (bal_refs _ _ _ B x0 L0) as R. assert (RP : (0 <= refs (ob_at s x0))%Z) by (destruct (ob_at s x0) as [k1 r1 l1|]; cbn [refs]; lia). destruct (held_kid l0 s G x0 B ltac:(lia)) as (z & LZ & IZ). destruct (ob_at s z) as [k r lz|] eqn:EZ; [|destruct IZ].
  destruct (rooted _ _ _ B 2 z k r lz ltac:(lia) LZ EZ) as (t & GT & LT & RT). rewrite EG in GT. pose proof (cnt_pos signers t).
  assert (T : b = Some t \/ l = Some t). { assert (C : forall p, (1 <= cnt (ol p) t)%Z -> p = Some t) by (intros p Q; apply cnt_In in Q; destruct p as [y|]; cbn [ol In] in Q; [destruct Q as [->|[]]; reflexivity|destruct Q]). pose proof (cnt_pos (ol b) t). pose proof (cnt_pos (ol l) t). destruct (Z_le_gt_dec 1 (cnt (ol b) t)) as [Q|Q]; [left; apply C, Q|right; apply C; lia]. }
  rewrite <- EZ in IZ. destruct T as [T|T].
  - destruct (HB t T) as [KT _]. assert (Q : forall a c, reach s a c -> kids (ob_at s a) = [] -> c = a) by (clear; intros a c H; induction H as [|x y z H IH I]; [reflexivity|]; intros Q; rewrite (IH Q), Q in I; destruct I). rewrite (Q _ _ RT KT), KT in IZ. destruct IZ.
  - destruct (HL t T) as [[_ OW] _]. assert (Q : forall a c, reach s a c -> (forall y, In y (kids (ob_at s a)) -> kids (ob_at s y) = []) -> c = a \/ In c (kids (ob_at s a))).
    { clear. intros a c H. induction H as [|x y z H IH I]; [auto|]. intros Q. destruct (IH Q) as [->|J]; [right; exact I|]. rewrite (Q y J) in I. destruct I. }
    destruct (Q _ _ RT (fun y J => proj2 (OW y J))) as [->|J]; [destruct (OW x0 IZ); lia|]. rewrite (proj2 (OW z J)) in IZ. destruct IZ.
Qed.
Theorem verify_crashes : forall o (inn : inner o) cms certs store s d, ba_read cms = Ok d -> coherent inn -> steady s -> reaches o d certs store -> exists k, verify_cms o inn cms certs store true s = UB k.
Proof.
  intros o inn cms certs store s d RD CO ST RE. destruct (verify_cms o inn cms certs store true s) as [[r s']|k] eqn:E; [|eauto]. exfalso.
  destruct (verify_prefix o inn (ob_list s) cms certs store s [] d RD (bl_start s)) as [(s1 & lost & _ & _ & _ & _ & NR & _)|X]; [exact (NR ST RE)|].
  destruct X as (c & sv & tv & text & data & signers & mem & stack & content & st & ptrs & s1 & lost & cs & EV & K & B & LO & VM & VS & VC & VT & VP & VB & _ & FB & LB & NE & FU).
  destruct RE as (c' & sv' & tv' & text' & x & xs & QC & QS & QT & _ & QX). destruct (FU ST) as (FC & FS & _). rewrite FC in QC. injection QC as <-. rewrite FS in QS. injection QS as <-.
  assert (SN : signers <> []) by (intros Q; apply (NE CO _ QX) in Q; discriminate Q). rewrite (LO ST) in B. cbn [app] in B. rewrite EV in E. unfold rest in E. rewrite QX in E.
  destruct (exatract o (Some (x :: xs)) signers s1) as [[rr s2]|] eqn:EX; [|discriminate E]. cbn [obind] in E. pose proof (steady_keeps _ _ _ K ST) as ST1. destruct B as (B & F & ND).
  destruct (exatract_bal o _ x xs signers s1 _ rr s2 B ST1 FB EX) as (B2 & HL & KK). destruct signers as [|x0 signers]; [contradiction|]. inversion FB as [|? ? [L0 (k0 & l0 & V0 & _)] _]; subst. destruct (view_at _ _ _ _ V0) as [r0 E0]. pose proof (alive_lt _ _ _ _ _ E0) as LT0.
  assert (LV : exists (a : option (option (bytes * nat) * option (certlist * nat))), leave (Some mem) stack content st ptrs a s2 = Ok (r, s')) by (destruct rr as [l|]; eauto). destruct LV as [a LV].
  destruct (leave_bal _ (ob_list s) s2 _ (Some mem) stack content st ptrs a r s' B2) as (B3 & L3 & _); [|exact LV|].
  { intros y I. rewrite Forall_forall in F. apply F. revert I. clear. intros I. repeat progress (cbn [In app ol] in *; rewrite ?in_app_iff in *). tauto. }
  refine (debt_absurd (ob_list s) s' (fst_id data) (list_of rr) (ob_next s1) x0 (x0 :: signers) _ B3 _ ltac:(left; reflexivity) L0 LT0 _ _).
  - intros y. unfold minus, plus. repeat rewrite ?cnt_app, ?cnt_cons, ?cnt_nil. cbn [ol app]. repeat rewrite ?cnt_app, ?cnt_cons, ?cnt_nil. lia.
  - intros y Q. pose proof (VB y Q) as VY. destruct (view_at _ _ _ _ VY) as [ry EY]. split; [|pose proof (LB y x0 Q ltac:(left; reflexivity)); lia]. destruct (less_kids _ _ y L3) as [->| ->]; [|reflexivity]. destruct (KK y (alive_lt _ _ _ _ _ EY)) as [->| ->]; [rewrite EY; reflexivity|reflexivity].
  - intros y Q. destruct (HL y Q) as [LY OW]. split; [exact (own_less _ _ _ _ OW L3)|lia].
Qed.
