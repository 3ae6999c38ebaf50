(** Proofs about OpenSSL objects: steps of the functions. *)
From Verif Require Import Base PBase MBase64 MSerialize MOs MVoucher MCrypto MObjects PObjects.
From Coq Require Import Permutation.
Open Scope nat_scope.

(** The references in hand are those of the list. *)
Definition bl (l0 : list obj) (s : objs) (L : list nat) : Prop := bal l0 s (cnt L) /\ Forall (fun x => List.length l0 <= x) L /\ NoDup L.
Definition keeps (s s' : objs) (L : list nat) : Prop := ob_ret s' = ob_ret s /\ ob_next s <= ob_next s' /\ forall y, In y L -> view s' y = view s y.
Lemma keeps_refl : forall s L, keeps s s L.
Proof. intros s L. split; [reflexivity|]. split; [lia|auto]. Qed.
Lemma keeps_trans : forall a b c L, keeps a b L -> keeps b c L -> keeps a c L.
Proof. intros a b c L (R1 & N1 & V1) (R2 & N2 & V2). split; [congruence|]. split; [lia|]. intros y I. rewrite V2, V1; auto. Qed.
Lemma keeps_incl : forall a b L L', keeps a b L' -> incl L L' -> keeps a b L.
Proof. intros a b L L' (R & N & V) I. split; [exact R|]. split; [exact N|]. intros y J. auto. Qed.
Lemma bl_perm : forall l0 s L L', bl l0 s L -> Permutation L L' -> bl l0 s L'.
Proof. intros l0 s L L' (B & F & ND) P. split; [eapply bal_ext; [exact B|]; intros x _; apply cnt_perm, P|]. split; [eapply Permutation_Forall; eauto|eapply Permutation_NoDup; eauto]. Qed.
Lemma bl_start : forall s, bl (ob_list s) s [].
Proof. intros s. split; [|split; constructor]. eapply bal_ext; [apply bal_start|]. reflexivity. Qed.
Lemma bl_alive : forall l0 s L x, bl l0 s L -> In x L -> exists k r l, ob_at s x = Alive k (S r) l /\ List.length l0 <= x.
Proof.
  intros l0 s L x (B & F & ND) I. rewrite Forall_forall in F. pose proof (bal_refs _ _ _ B x (F x I)) as R. pose proof (holders_pos (skipn (List.length l0) (ob_list s)) x). apply cnt_In in I as C. destruct (alive_refs _ _ _ _ B (F x I) ltac:(lia)) as (k & r & l & E). exists k, r, l. auto.
Qed.
Lemma bl_view : forall l0 s L x, bl l0 s L -> In x L -> exists k l, view s x = Some (k, l).
Proof. intros l0 s L x B I. destruct (bl_alive _ _ _ _ B I) as (k & r & l & E & _). exists k, l. unfold view. rewrite E. reflexivity. Qed.
Lemma bl_lt : forall l0 s L x, bl l0 s L -> In x L -> x < ob_next s.
Proof. intros l0 s L x B I. destruct (bl_alive _ _ _ _ B I) as (k & r & l & E & _). eapply alive_lt; eauto. Qed.
Lemma level_2 : forall k, level k <= 2.
Proof. destruct k; cbn [level]; lia. Qed.
Lemma kind_refl : forall k, kind_eqb k k = true. Proof. destruct k; reflexivity. Qed.
Lemma view_at : forall s x k l, view s x = Some (k, l) -> exists r, ob_at s x = Alive k r l.
Proof. intros s x k l V. unfold view in V. destruct (ob_at s x) as [k' r l'|]; [|discriminate V]. injection V as -> ->. eauto. Qed.
Lemma at_view : forall s x k r l, ob_at s x = Alive k r l -> view s x = Some (k, l).
Proof. intros s x k r l E. unfold view. rewrite E. reflexivity. Qed.

Lemma free_step : forall l0 s L x k l, bl l0 s (x :: L) -> view s x = Some (k, l) -> exists s', free k s (Some x) = Ok s' /\ bl l0 s' L /\ keeps s s' L.
Proof.
  intros l0 s L x k l (B & F & ND) V. inversion F; subst. inversion ND; subst. destruct (view_at _ _ _ _ V) as [r E].
  assert (FG : fair (cnt (x :: L))) by (intros y; apply cnt_pos). assert (GX : (1 <= cnt (x :: L) x)%Z) by (apply cnt_In; left; reflexivity).
  destruct (release_ok l0 2 s _ x k r l B FG H1 GX E (level_2 k)) as [s' E']. destruct (release_bal _ _ _ _ _ _ B H1 E') as [B' (N & R & A)].
  assert (B2 : bl l0 s' L). { split; [|split; assumption]. eapply bal_ext; [exact B'|]. intros y _. unfold minus. rewrite !cnt_cons, cnt_nil. lia. }
  exists s'. split; [cbn [free]; rewrite E, kind_refl; exact E'|]. split; [exact B2|]. split; [exact R|]. split; [lia|]. intros y I.
  destruct (bl_alive _ _ _ _ B2 I) as (k' & r' & l' & EY & _). destruct (A _ _ _ _ EY) as [r2 E2]. rewrite (at_view _ _ _ _ _ EY), (at_view _ _ _ _ _ E2). reflexivity.
Qed.
Lemma add_keeps : forall l0 s L v, bl l0 s L -> keeps s (ob_add s v) L.
Proof.
  intros l0 s L v B. split; [reflexivity|]. split; [unfold ob_next, ob_add; cbn [ob_list]; rewrite app_length; lia|]. intros y I. pose proof (bl_lt _ _ _ _ B I) as LT. unfold view. rewrite add_at. replace (y =? ob_next s) with false by (symmetry; apply Nat.eqb_neq; lia). reflexivity.
Qed.
Lemma gone_step : forall l0 s L, bl l0 s L -> bl l0 (ob_add s Gone) L.
Proof. intros l0 s L (B & F & ND). split; [|split; assumption]. eapply bal_ext; [apply bal_add; [exact B|left; reflexivity]|]. intros x _. cbn [refs]. cbv beta. destruct (x =? ob_next s); lia. Qed.
Lemma alive_step : forall l0 s L k, bl l0 s L -> bl l0 (ob_add s (Alive k 1 [])) (ob_next s :: L) /\ view (ob_add s (Alive k 1 [])) (ob_next s) = Some (k, []).
Proof.
  intros l0 s L k BL. pose proof BL as (B & F & ND). split.
  - split; [|split; [constructor; [exact (bal_len _ _ _ B)|exact F]|constructor; [|exact ND]; intros I; pose proof (bl_lt _ _ _ _ BL I); lia]]. eapply bal_ext; [apply bal_add; [exact B|right; eauto]|]. intros x _. cbn [refs]. cbv beta. rewrite cnt_cons, (Nat.eqb_sym x). destruct (ob_next s =? x); lia.
  - unfold view. rewrite add_at, Nat.eqb_refl. reflexivity.
Qed.
Lemma new_step : forall l0 s L k p s', bl l0 s L -> ob_new s k = (p, s') -> keeps s s' L /\
  ((p = None /\ bl l0 s' L /\ (ob_ret s (ob_next s) <= 0)%Z) \/ (p = Some (ob_next s) /\ bl l0 s' (ob_next s :: L) /\ view s' (ob_next s) = Some (k, []) /\ (0 < ob_ret s (ob_next s))%Z)).
Proof.
  intros l0 s L k p s' B E. unfold ob_new in E. destruct (Z.leb_spec (ob_ret s (ob_next s)) 0) as [R|R]; injection E as <- <-.
  - split; [eapply add_keeps; exact B|]. left. split; [reflexivity|]. split; [apply gone_step; exact B|exact R].
  - split; [eapply add_keeps; exact B|]. right. split; [reflexivity|]. destruct (alive_step l0 s L k B) as [B1 V1]. auto.
Qed.
Lemma call_step : forall l0 s L z s', bl l0 s L -> ob_call s = (z, s') -> keeps s s' L /\ bl l0 s' L /\ z = ob_ret s (ob_next s).
Proof. intros l0 s L z s' B E. unfold ob_call in E. injection E as <- <-. split; [eapply add_keeps; exact B|]. split; [apply gone_step; exact B|reflexivity]. Qed.

(** Holding, with the reference of the holder taken from those in hand; the general
    form may leave a debt. *)
Lemma hold_bal : forall l0 s G c x k r l, bal l0 s G -> List.length l0 <= c -> ob_at s c = Alive k r l -> List.length l0 <= x < ob_next s ->
  (forall k' r' l', ob_at s x = Alive k' r' l' -> level k' < level k) ->
  exists s', hold s c x = Ok s' /\ bal l0 s' (minus G [x]) /\ ob_next s' = ob_next s /\ ob_ret s' = ob_ret s /\ ob_at s' c = Alive k r (l ++ [x]) /\ forall y, y <> c -> ob_at s' y = ob_at s y.
Proof.
  intros l0 s G c x k r l B LC EC LX LV. unfold hold. rewrite EC. eexists. split; [reflexivity|]. pose proof (alive_lt _ _ _ _ _ EC) as LT.
  assert (NX : x <> c) by (intros ->; pose proof (LV _ _ _ EC); lia).
  split; [|split; [apply put_next|split; [reflexivity|split; [rewrite put_at, Nat.eqb_refl by exact LT; reflexivity|intros y N; rewrite put_at by exact LT; destruct (Nat.eqb_spec y c); [contradiction|reflexivity]]]]].
  eapply bal_ext; [apply (bal_put l0 s G c (Alive k r (l ++ [x]))); try assumption|].
  - cbn [kids]. intros y I. apply in_app_or in I. destruct I as [I|[<-|[]]]; [|exact LX]. apply (bal_kids _ _ _ B c y LC). rewrite EC. exact I.
  - intros y k0 r0 l1 k' r' l' Q I EY. injection Q as <- <- <-. apply in_app_or in I. destruct (Nat.eqb_spec y c) as [->|N].
    + injection EY as <- <- <-. destruct I as [I|[Q|[]]]; [|congruence]. pose proof (bal_level _ _ _ B c c k r l k r l LC EC I EC). lia.
    + destruct I as [I|[<-|[]]]; [eapply (bal_level _ _ _ B c y); eauto|eauto].
  - intros k0 r0 l1 Q. injection Q as <- <- <-. eapply bal_some; eauto.
  - intros k0 r0 l1 Q. injection Q as <- <- <-. eauto.
  - intros y LY. rewrite EC. cbn [refs kids]. unfold minus. rewrite cnt_app. destruct (y =? c); lia.
Qed.
Lemma hold_step : forall l0 s L c x k l kx lx, bl l0 s (x :: L) -> In c L -> view s c = Some (k, l) -> view s x = Some (kx, lx) -> level kx < level k ->
  exists s', hold s c x = Ok s' /\ bl l0 s' L /\ view s' c = Some (k, l ++ [x]) /\ (forall y, y <> c -> view s' y = view s y) /\ ob_next s' = ob_next s /\ ob_ret s' = ob_ret s.
Proof.
  intros l0 s L c x k l kx lx BL IC VC VX LV. pose proof BL as (B & F & ND). inversion F; subst. inversion ND; subst. destruct (view_at _ _ _ _ VC) as [r EC]. destruct (view_at _ _ _ _ VX) as [rx EX].
  assert (LC : List.length l0 <= c) by (rewrite Forall_forall in F; apply F; right; exact IC).
  destruct (hold_bal l0 s _ c x k r l B LC EC (conj H1 (alive_lt _ _ _ _ _ EX))) as (s' & E & B' & N & R & EC' & A). { intros k' r' l' Q. rewrite EX in Q. injection Q as <- <- <-. exact LV. }
  exists s'. split; [exact E|]. split. { split; [|split; assumption]. eapply bal_ext; [exact B'|]. intros y _. unfold minus. rewrite !cnt_cons, cnt_nil. lia. }
  split; [eapply at_view; exact EC'|]. split; [|auto]. intros y NY. unfold view. rewrite (A y NY). reflexivity.
Qed.
Lemma up_bal : forall l0 s G x k r l, bal l0 s G -> List.length l0 <= x -> ob_at s x = Alive k r l ->
  exists s', up_ref s x = Ok s' /\ bal l0 s' (fun y => (G y + cnt [x] y)%Z) /\ ob_next s' = ob_next s /\ ob_ret s' = ob_ret s /\ (forall y, view s' y = view s y).
Proof.
  intros l0 s G x k r l B L E. unfold up_ref. rewrite E. eexists. split; [reflexivity|]. pose proof (alive_lt _ _ _ _ _ E) as LT.
  split; [|split; [apply put_next|split; [reflexivity|]]].
  - eapply bal_ext; [apply (bal_put l0 s G x (Alive k (S r) l)); try assumption|].
    + cbn [kids]. intros y I. apply (bal_kids _ _ _ B x). exact L. rewrite E. exact I.
    + intros y k0 r0 l0' k' r'' l' Q I EY. injection Q as <- <- <-. destruct (Nat.eqb_spec y x) as [->|N]; [injection EY as <- <- <-; eapply (bal_level _ _ _ B x x); eauto|eapply (bal_level _ _ _ B x y); eauto].
    + intros k0 r0 l0' Q. injection Q as <- <- <-. lia.
    + intros k0 r0 l0' Q. injection Q as <- <- <-. eauto.
    + intros y LY. rewrite E. cbn [refs kids]. rewrite cnt_cons, cnt_nil. rewrite (Nat.eqb_sym y x). destruct (x =? y)%nat; lia.
  - intros y. unfold view. rewrite put_at by exact LT. destruct (Nat.eqb_spec y x) as [->|N]; [rewrite E; reflexivity|reflexivity].
Qed.
Definition below (s : objs) (l0 : list obj) (n : nat) (x : nat) : Prop := List.length l0 <= x /\ exists k l, view s x = Some (k, l) /\ level k < n.
Lemma share_step : forall l0 xs s L c k l, bl l0 s L -> In c L -> view s c = Some (k, l) -> Forall (below s l0 (level k)) xs ->
  exists s', share s c xs = Ok s' /\ bl l0 s' L /\ view s' c = Some (k, l ++ xs) /\ (forall y, y <> c -> view s' y = view s y) /\ ob_next s' = ob_next s /\ ob_ret s' = ob_ret s.
Proof.
  intros l0. induction xs as [|x xs IH]; intros s L c k l BL IC VC F.
  - exists s. cbn [share]. rewrite app_nil_r. auto 7.
  - inversion F; subst. destruct H1 as [LX (kx & lx & VX & LV)]. destruct BL as (B & FL & ND). assert (LC : List.length l0 <= c) by (rewrite Forall_forall in FL; apply FL; exact IC).
    destruct (view_at _ _ _ _ VX) as [rx EX]. destruct (up_bal l0 s _ x kx rx lx B LX EX) as (s1 & E1 & B1 & N1 & R1 & V1).
    assert (VC1 : view s1 c = Some (k, l)) by (rewrite V1; exact VC). destruct (view_at _ _ _ _ VC1) as [rc EC].
    assert (VX1 : view s1 x = Some (kx, lx)) by (rewrite V1; exact VX). destruct (view_at _ _ _ _ VX1) as [rx1 EX1].
    destruct (hold_bal l0 s1 _ c x k rc l B1 LC EC (conj LX (alive_lt _ _ _ _ _ EX1))) as (s2 & E2 & B2 & N2 & R2 & EC2 & A2). { intros k' r' l' Q. rewrite EX1 in Q. injection Q as <- <- <-. exact LV. }
    assert (NX : x <> c) by (intros ->; rewrite VC in VX; injection VX as <- <-; lia).
    assert (V2 : forall y, y <> c -> view s2 y = view s y) by (intros y N; unfold view at 1; rewrite (A2 y N); apply V1).
    assert (BL2 : bl l0 s2 L). { split; [|split; assumption]. eapply bal_ext; [exact B2|]. intros y _. unfold minus. lia. }
    destruct (IH s2 L c k (l ++ [x]) BL2 IC (at_view _ _ _ _ _ EC2)) as (s3 & E3 & B3 & V3 & A3 & N3 & R3).
    { eapply Forall_impl; [|exact H2]. intros y [LY (ky & ly & VY & LVY)]. split; [exact LY|]. destruct (Nat.eq_dec y c) as [->|N]; [rewrite VC in VY; injection VY as <- <-; lia|]. exists ky, ly. rewrite V2 by exact N. auto. }
    exists s3. split; [cbn [share]; rewrite E1; cbn [obind]; rewrite E2; exact E3|]. split; [exact B3|]. split; [rewrite V3, <- app_assoc; reflexivity|]. split; [|split; congruence]. intros y N. rewrite A3, V2 by exact N. reflexivity.
Qed.
(** What a holder in hand holds is in use and of a lower level. *)
Lemma kids_below : forall l0 s L c k l, bl l0 s L -> In c L -> view s c = Some (k, l) -> Forall (below s l0 (level k)) l.
Proof.
  intros l0 s L c k l (B & F & ND) IC VC. apply Forall_forall. intros x I. rewrite Forall_forall in F. pose proof (F c IC) as LC. destruct (view_at _ _ _ _ VC) as [r EC].
  assert (IK : In x (kids (ob_at s c))) by (rewrite EC; exact I). destruct (bal_kids _ _ _ B c x LC IK) as [LX _]. pose proof (kid_held _ _ _ _ _ B LC IK). pose proof (bal_refs _ _ _ B x LX) as R. pose proof (cnt_pos L x).
  destruct (alive_refs _ _ _ _ B LX ltac:(lia)) as (k' & r' & l' & EX). split; [exact LX|]. exists k', l'. split; [eapply at_view; exact EX|]. eapply (bal_level _ _ _ B c x); eauto.
Qed.

(** ** What is left at the end *)
Inductive reach (s : objs) : nat -> nat -> Prop :=
| reach_self : forall x, reach s x x
| reach_kid : forall x y z, reach s x y -> In z (kids (ob_at s y)) -> reach s x z.
Lemma rooted : forall l0 s G, bal l0 s G -> forall n y k r l, 2 - level k <= n -> List.length l0 <= y -> ob_at s y = Alive k r l -> exists t, (1 <= G t)%Z /\ List.length l0 <= t /\ reach s t y.
Proof.
  intros l0 s G B. induction n as [|n IH]; intros y k r l LV LY EY; pose proof (bal_some _ _ _ B y k r l LY EY) as R1; pose proof (bal_refs _ _ _ B y LY) as R; rewrite EY in R; cbn [refs] in R.
  - destruct (Z_le_gt_dec 1 (G y)) as [GY|GY]; [exists y; split; [exact GY|split; [exact LY|constructor]]|]. exfalso. destruct (held_kid l0 s G y B ltac:(lia)) as (z & LZ & I). destruct (ob_at s z) as [kz rz lz|] eqn:EZ; [|contradiction].
    pose proof (bal_level _ _ _ B z y _ _ _ _ _ _ LZ EZ I EY). pose proof (level_2 kz). lia.
  - destruct (Z_le_gt_dec 1 (G y)) as [GY|GY]; [exists y; split; [exact GY|split; [exact LY|constructor]]|]. destruct (held_kid l0 s G y B ltac:(lia)) as (z & LZ & I). destruct (ob_at s z) as [kz rz lz|] eqn:EZ; [|contradiction].
    pose proof (bal_level _ _ _ B z y _ _ _ _ _ _ LZ EZ I EY). destruct (IH z kz rz lz ltac:(lia) LZ EZ) as (t & GT & LT & RT). exists t. split; [exact GT|]. split; [exact LT|]. eapply reach_kid; [exact RT|]. rewrite EZ. exact I.
Qed.
