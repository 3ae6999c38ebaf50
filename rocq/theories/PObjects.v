(** Proofs about OpenSSL objects: the ledger of references. *)
From Verif Require Import Base PBase MBase64 MSerialize MOs MVoucher MCrypto MObjects.
From Coq Require Import Permutation.
Open Scope nat_scope.

Definition refs (v : obj) : Z := match v with Alive _ r _ => Z.of_nat r | Gone => 0 end.
Definition kids (v : obj) : list nat := match v with Alive _ _ l => l | Gone => [] end.
Definition cnt (l : list nat) (x : nat) : Z := Z.of_nat (count_occ Nat.eq_dec l x).
Fixpoint holders (l : list obj) (x : nat) : Z := match l with [] => 0%Z | v :: l => (cnt (kids v) x + holders l x)%Z end.
Definition level (k : kind) : nat :=
  match k with KBuf | KKey | KCrl | KBio | KFile | KAsn => 0 | KCert | KCtx => 1 | _ => 2 end.
Definition view (s : objs) (x : nat) : option (kind * list nat) := match ob_at s x with Alive k _ l => Some (k, l) | Gone => None end.

Lemma cnt_app : forall a b x, cnt (a ++ b) x = (cnt a x + cnt b x)%Z.
Proof. intros a b x. unfold cnt. rewrite count_occ_app. lia. Qed.
Lemma cnt_pos : forall l x, (0 <= cnt l x)%Z.
Proof. intros. unfold cnt. lia. Qed.
Lemma cnt_nil : forall x, cnt [] x = 0%Z. Proof. reflexivity. Qed.
Lemma cnt_cons : forall y l x, cnt (y :: l) x = ((if Nat.eqb y x then 1 else 0) + cnt l x)%Z.
Proof. intros y l x. unfold cnt. cbn [count_occ]. destruct (Nat.eq_dec y x) as [->|N]; [rewrite Nat.eqb_refl; lia|]. replace (y =? x) with false by (symmetry; apply Nat.eqb_neq; exact N). lia. Qed.
Lemma cnt_In : forall l x, In x l <-> (1 <= cnt l x)%Z.
Proof. intros l x. unfold cnt. rewrite (count_occ_In Nat.eq_dec). lia. Qed.
Lemma cnt_perm : forall l l' x, Permutation l l' -> cnt l x = cnt l' x.
Proof. intros l l' x P. unfold cnt. f_equal. apply Permutation_count_occ. exact P. Qed.

Lemma upd_length : forall l x v, List.length (upd l x v) = List.length l.
Proof. induction l as [|y l IH]; intros [|x] v; cbn [upd List.length]; congruence. Qed.
Lemma upd_nth : forall l x v y, x < List.length l -> nth y (upd l x v) Gone = if Nat.eqb y x then v else nth y l Gone.
Proof.
  induction l as [|a l IH]; intros [|x] v [|y] L; cbn [upd nth List.length] in *; try lia; try reflexivity.
  rewrite IH by lia. reflexivity.
Qed.
Lemma upd_holders : forall l x v y, x < List.length l -> holders (upd l x v) y = (holders l y - cnt (kids (nth x l Gone)) y + cnt (kids v) y)%Z.
Proof.
  induction l as [|a l IH]; intros [|x] v y L; cbn [upd nth List.length holders] in *; try lia. rewrite IH by lia. lia.
Qed.
Lemma holders_app : forall a b x, holders (a ++ b) x = (holders a x + holders b x)%Z.
Proof. induction a as [|v a IH]; intros b x; cbn [app holders]; [lia|]. rewrite IH. lia. Qed.
Lemma holders_pos : forall l x, (0 <= holders l x)%Z.
Proof. induction l as [|v l IH]; intros x; cbn [holders]; [lia|]. pose proof (cnt_pos (kids v) x). pose proof (IH x). lia. Qed.
Lemma holders_one : forall l x, (1 <= holders l x)%Z -> exists z, z < List.length l /\ In x (kids (nth z l Gone)).
Proof.
  induction l as [|v l IH]; intros x H; cbn [holders] in H; [lia|]. destruct (in_dec Nat.eq_dec x (kids v)) as [I|N].
  - exists 0. split; [cbn [List.length]; lia|exact I].
  - assert (C : cnt (kids v) x = 0%Z) by (pose proof (cnt_pos (kids v) x); destruct (Z.eq_dec (cnt (kids v) x) 0); [assumption|]; exfalso; apply N, cnt_In; lia).
    destruct (IH x ltac:(lia)) as (z & L & I). exists (S z). split; [cbn [List.length]; lia|exact I].
Qed.
Lemma holders_kid : forall l z x, z < List.length l -> (cnt (kids (nth z l Gone)) x <= holders l x)%Z.
Proof.
  induction l as [|v l IH]; intros [|z] x L; cbn [List.length nth holders] in *; try lia; [pose proof (holders_pos l x); lia|]. pose proof (IH z x ltac:(lia)). pose proof (cnt_pos (kids v) x). lia.
Qed.

(** ** The ledger *)

(** The objects below [List.length l0] are those of [l0]; each later object has as many
    references as [G] says that are in hand, and one for each later object holding it. *)
Record bal (l0 : list obj) (s : objs) (G : nat -> Z) : Prop := mk_bal {
  bal_old : exists l1, ob_list s = l0 ++ l1;
  bal_refs : forall x, List.length l0 <= x -> refs (ob_at s x) = (G x + holders (skipn (List.length l0) (ob_list s)) x)%Z;
  bal_kids : forall z x, List.length l0 <= z -> In x (kids (ob_at s z)) -> List.length l0 <= x < ob_next s;
  bal_level : forall z x k r l k' r' l', List.length l0 <= z -> ob_at s z = Alive k r l -> In x l -> ob_at s x = Alive k' r' l' -> level k' < level k;
  bal_some : forall z k r l, List.length l0 <= z -> ob_at s z = Alive k r l -> 1 <= r }.

Lemma bal_ext : forall l0 s G G', bal l0 s G -> (forall x, List.length l0 <= x -> G x = G' x) -> bal l0 s G'.
Proof. intros l0 s G G' B E. destruct B. constructor; auto. intros x L. rewrite <- (E x L). auto. Qed.
Lemma bal_start : forall s, bal (ob_list s) s (fun _ => 0%Z).
Proof.
  intros s. assert (N : forall x, List.length (ob_list s) <= x -> ob_at s x = Gone) by (intros x L; apply nth_overflow; exact L).
  constructor.
  - exists []. rewrite app_nil_r. reflexivity.
  - intros x L. rewrite (N x L), skipn_all. reflexivity.
  - intros z x L I. rewrite (N z L) in I. contradiction.
  - intros z x k r l k' r' l' L E. rewrite (N z L) in E. discriminate E.
  - intros z k r l L E. rewrite (N z L) in E. discriminate E.
Qed.
Lemma bal_len : forall l0 s G, bal l0 s G -> List.length l0 <= ob_next s.
Proof. intros l0 s G B. destruct (bal_old _ _ _ B) as [l1 E]. unfold ob_next. rewrite E, app_length. lia. Qed.

Lemma skipn_upd : forall l0 l1 x v, List.length l0 <= x -> upd (l0 ++ l1) x v = l0 ++ upd l1 (x - List.length l0) v.
Proof.
  induction l0 as [|a l0 IH]; intros l1 x v L; cbn [app List.length]; [rewrite Nat.sub_0_r; reflexivity|].
  destruct x as [|x]; [cbn [List.length] in L; lia|]. cbn [upd]. rewrite IH by (cbn [List.length] in L; lia). reflexivity.
Qed.
Lemma alive_lt : forall s x k r l, ob_at s x = Alive k r l -> x < ob_next s.
Proof. intros s x k r l E. unfold ob_at in E. destruct (Nat.lt_ge_cases x (ob_next s)) as [L|L]; [exact L|]. rewrite nth_overflow in E by exact L. discriminate E. Qed.
Lemma put_at : forall s x v y, x < ob_next s -> ob_at (ob_put s x v) y = if Nat.eqb y x then v else ob_at s y.
Proof. intros s x v y L. unfold ob_at, ob_put. cbn [ob_list]. apply upd_nth. exact L. Qed.
Lemma put_next : forall s x v, ob_next (ob_put s x v) = ob_next s.
Proof. intros. unfold ob_next, ob_put. cbn [ob_list]. apply upd_length. Qed.
Lemma put_ret : forall s x v, ob_ret (ob_put s x v) = ob_ret s. Proof. reflexivity. Qed.

(** Changing one object. *)
Lemma bal_put : forall l0 s G x v, bal l0 s G -> List.length l0 <= x -> x < ob_next s ->
  (forall y, In y (kids v) -> List.length l0 <= y < ob_next s) ->
  (forall y k r l k' r' l', v = Alive k r l -> In y l -> (if Nat.eqb y x then v else ob_at s y) = Alive k' r' l' -> level k' < level k) ->
  (forall k r l, v = Alive k r l -> 1 <= r) ->
  (forall k r l, v = Alive k r l -> exists r' l', ob_at s x = Alive k r' l') ->
  bal l0 (ob_put s x v) (fun y => (G y + (if Nat.eqb y x then refs v - refs (ob_at s x) else 0) + cnt (kids (ob_at s x)) y - cnt (kids v) y)%Z).
Proof.
  intros l0 s G x v B LX LN KV LV RV SK. destruct B as [[l1 E] BR BK BL BS].
  assert (EL : ob_list (ob_put s x v) = l0 ++ upd l1 (x - List.length l0) v) by (unfold ob_put; cbn [ob_list]; rewrite E; apply skipn_upd; exact LX).
  assert (SK1 : forall l, skipn (List.length l0) (l0 ++ l) = l) by (intros l; rewrite skipn_app, skipn_all, Nat.sub_diag; reflexivity).
  assert (NX : nth (x - List.length l0) l1 Gone = ob_at s x) by (unfold ob_at; rewrite E, app_nth2 by exact LX; reflexivity).
  constructor.
  - eauto.
  - intros y LY. rewrite put_at by exact LN. rewrite EL, SK1. rewrite upd_holders by (unfold ob_next in LN; rewrite E, app_length in LN; lia). rewrite NX.
    pose proof (BR y LY) as Q. rewrite E, SK1 in Q. destruct (Nat.eqb_spec y x) as [->|N]; lia.
  - intros z y LZ I. rewrite put_next. rewrite put_at in I by exact LN. destruct (Nat.eqb_spec z x) as [->|N]; eauto.
  - intros z y k r l k' r' l' LZ EZ I EY. rewrite put_at in EZ by exact LN. rewrite put_at in EY by exact LN. destruct (Nat.eqb_spec z x) as [->|N].
    + eapply LV; eauto.
    + destruct (Nat.eqb_spec y x) as [->|N2].
      * destruct (SK _ _ _ EY) as (r2 & l2 & E2). eapply (BL z x); eauto.
      * eapply (BL z y); eauto.
  - intros z k r l LZ EZ. rewrite put_at in EZ by exact LN. destruct (Nat.eqb_spec z x) as [->|N]; eauto.
Qed.
Lemma add_at : forall s v y, ob_at (ob_add s v) y = if Nat.eqb y (ob_next s) then v else ob_at s y.
Proof.
  intros s v y. unfold ob_at, ob_add, ob_next. cbn [ob_list]. destruct (Nat.eqb_spec y (List.length (ob_list s))) as [->|N].
  - rewrite app_nth2, Nat.sub_diag by lia. reflexivity.
  - destruct (Nat.lt_ge_cases y (List.length (ob_list s))) as [L|L]; [apply app_nth1; exact L|]. rewrite !nth_overflow by (try rewrite app_length; cbn [List.length]; lia). reflexivity.
Qed.
Lemma holders_none : forall l x, (forall z, z < List.length l -> ~ In x (kids (nth z l Gone))) -> holders l x = 0%Z.
Proof. intros l x N. pose proof (holders_pos l x) as P. destruct (Z.eq_dec (holders l x) 0) as [E|E]; [exact E|]. destruct (holders_one l x ltac:(lia)) as (z & L & I). destruct (N z L I). Qed.
Lemma nth_skip : forall (l0 l1 : list obj) s, ob_list s = l0 ++ l1 -> skipn (List.length l0) (ob_list s) = l1 /\ forall z, nth z l1 Gone = ob_at s (List.length l0 + z).
Proof. intros l0 l1 s E. rewrite E, skipn_app, skipn_all, Nat.sub_diag. split; [reflexivity|]. intros z. unfold ob_at. rewrite E, app_nth2 by lia. f_equal. lia. Qed.
Lemma bal_next : forall l0 s G, bal l0 s G -> holders (skipn (List.length l0) (ob_list s)) (ob_next s) = 0%Z.
Proof.
  intros l0 s G B. destruct (bal_old _ _ _ B) as [l1 E]. destruct (nth_skip _ _ _ E) as [-> A]. apply holders_none. intros z L I. rewrite A in I. destruct (bal_kids _ _ _ B (List.length l0 + z) (ob_next s) ltac:(lia) I). lia.
Qed.
Lemma bal_add : forall l0 s G v, bal l0 s G -> (v = Gone \/ exists k r, v = Alive k (S r) []) ->
  bal l0 (ob_add s v) (fun y => (G y + (if Nat.eqb y (ob_next s) then refs v else 0))%Z).
Proof.
  intros l0 s G v B V. pose proof (bal_next _ _ _ B) as HZ. pose proof (bal_len _ _ _ B) as LN. destruct B as [[l1 E] BR BK BL BS].
  assert (NN : ob_next (ob_add s v) = S (ob_next s)) by (unfold ob_next, ob_add; cbn [ob_list]; rewrite app_length; cbn [List.length]; lia).
  assert (KV : kids v = []) by (destruct V as [->|(k & r & ->)]; reflexivity).
  assert (GN : ob_at s (ob_next s) = Gone) by (apply nth_overflow; unfold ob_next; lia).
  constructor.
  - exists (l1 ++ [v]). unfold ob_add. cbn [ob_list]. rewrite E, app_assoc. reflexivity.
  - intros y LY. rewrite add_at. unfold ob_add. cbn [ob_list]. rewrite skipn_app. replace (List.length l0 - List.length (ob_list s)) with 0 by (unfold ob_next in LN; lia). cbn [skipn].
    rewrite holders_app. cbn [holders]. rewrite KV. pose proof (BR y LY) as Q. destruct (Nat.eqb_spec y (ob_next s)) as [->|N]; rewrite ?cnt_nil.
    + rewrite GN in Q. cbn [refs] in Q. lia.
    + lia.
  - intros z x LZ I. rewrite NN. rewrite add_at in I. destruct (Nat.eqb_spec z (ob_next s)) as [->|N]; [rewrite KV in I; contradiction|]. destruct (BK z x LZ I). lia.
  - intros z x k r l k' r' l' LZ EZ I EX. rewrite add_at in EZ. rewrite add_at in EX. destruct (Nat.eqb_spec z (ob_next s)) as [->|N].
    + subst v. cbn [kids] in KV. subst l. contradiction.
    + destruct (Nat.eqb_spec x (ob_next s)) as [->|N2]; [|eauto]. exfalso.
      assert (cnt (kids (ob_at s z)) (ob_next s) <= holders (skipn (List.length l0) (ob_list s)) (ob_next s))%Z.
      { rewrite E. rewrite skipn_app, skipn_all, Nat.sub_diag. cbn [skipn app]. unfold ob_at. rewrite E, app_nth2 by exact LZ. apply holders_kid.
        pose proof (alive_lt _ _ _ _ _ EZ) as Q. unfold ob_next in Q. rewrite E, app_length in Q. lia. }
      rewrite EZ in H. cbn [kids] in H. apply cnt_In in I. lia.
  - intros z k r l LZ EZ. rewrite add_at in EZ. destruct (Nat.eqb_spec z (ob_next s)) as [->|N]; [|eauto]. subst v. destruct V as [V|(k2 & r2 & V)]; [discriminate V|injection V as -> -> ->; lia].
Qed.

Lemma alive_refs : forall l0 s G x, bal l0 s G -> List.length l0 <= x -> (1 <= refs (ob_at s x))%Z -> exists k r l, ob_at s x = Alive k (S r) l.
Proof. intros l0 s G x B L R. destruct (ob_at s x) as [k [|r] l|] eqn:E; cbn [refs] in R; [lia|eauto|lia]. Qed.
Lemma kid_held : forall l0 s G z x, bal l0 s G -> List.length l0 <= z -> In x (kids (ob_at s z)) -> (1 <= holders (skipn (List.length l0) (ob_list s)) x)%Z.
Proof.
  intros l0 s G z x B L I. destruct (bal_old _ _ _ B) as [l1 E]. destruct (nth_skip _ _ _ E) as [-> A].
  assert (LT : z - List.length l0 < List.length l1). { destruct (ob_at s z) eqn:EZ; [|contradiction]. pose proof (alive_lt _ _ _ _ _ EZ) as Q. unfold ob_next in Q. rewrite E, app_length in Q. lia. }
  pose proof (holders_kid l1 (z - List.length l0) x LT) as Q. rewrite A in Q. replace (List.length l0 + (z - List.length l0)) with z in Q by lia. apply cnt_In in I. lia.
Qed.
Lemma held_kid : forall l0 s G x, bal l0 s G -> (1 <= holders (skipn (List.length l0) (ob_list s)) x)%Z -> exists z, List.length l0 <= z /\ In x (kids (ob_at s z)).
Proof.
  intros l0 s G x B H. destruct (bal_old _ _ _ B) as [l1 E]. destruct (nth_skip _ _ _ E) as [SK A]. rewrite SK in H. destruct (holders_one l1 x H) as (z & L & I). rewrite A in I. exists (List.length l0 + z). split; [lia|exact I].
Qed.

(** ** Releasing *)
Definition each_release (d : nat) := fix each (l : list nat) (s : objs) : outcome objs := match l with [] => Ok s | y :: l => obind (release d s y) (fun s => each l s) end.
Definition minus (G : nat -> Z) (l : list nat) : nat -> Z := fun y => (G y - cnt l y)%Z.
(** Only the objects from [List.length l0] on change, and an object that is in use after a
    release is the same as before but for its number of references. *)
Definition less (s s' : objs) : Prop := ob_next s' = ob_next s /\ ob_ret s' = ob_ret s /\ forall y k r l, ob_at s' y = Alive k r l -> exists r', ob_at s y = Alive k r' l.
Lemma less_refl : forall s, less s s.
Proof. intros s. split; [reflexivity|]. split; [reflexivity|]. eauto. Qed.
Lemma less_trans : forall a b c, less a b -> less b c -> less a c.
Proof. intros a b c (N1 & R1 & A1) (N2 & R2 & A2). split; [congruence|]. split; [congruence|]. intros y k r l E. destruct (A2 _ _ _ _ E) as [r' E']. eauto. Qed.

Lemma release_bal : forall l0 d s G x s', bal l0 s G -> List.length l0 <= x -> release d s x = Ok s' -> bal l0 s' (minus G [x]) /\ less s s'.
Proof.
  intros l0. induction d as [|d IH]; intros s G x s' B L E.
  - cbn [release] in E. destruct (ob_at s x) as [k r l|] eqn:EX; [|discriminate E]. pose proof (alive_lt _ _ _ _ _ EX) as LT.
    assert (DEC : forall r', r = S (S r') -> bal l0 (ob_put s x (Alive k (S r') l)) (minus G [x]) /\ less s (ob_put s x (Alive k (S r') l))).
    { intros r' ->. split.
      - eapply bal_ext; [apply (bal_put l0 s G x (Alive k (S r') l)); try assumption|].
        + cbn [kids]. intros y I. apply (bal_kids _ _ _ B x). exact L. rewrite EX. exact I.
        + intros y k0 r0 l0' k' r'' l' Q I EY. injection Q as <- <- <-. destruct (Nat.eqb_spec y x) as [->|N]; [injection EY as <- <- <-; eapply (bal_level _ _ _ B x x); eauto|eapply (bal_level _ _ _ B x y); eauto].
        + intros k0 r0 l0' Q. injection Q as <- <- <-. lia.
        + intros k0 r0 l0' Q. injection Q as <- <- <-. eauto.
        + intros y LY. rewrite EX. cbn [refs kids]. unfold minus. rewrite cnt_cons, cnt_nil. rewrite (Nat.eqb_sym y x). destruct (x =? y)%nat; lia.
      - split; [apply put_next|]. split; [reflexivity|]. intros y k0 r0 l1 Q. rewrite put_at in Q by exact LT. destruct (Nat.eqb_spec y x) as [->|N]; [injection Q as <- <- <-; eauto|eauto]. }
    assert (GONE : r = 0 \/ r = 1 -> l = [] -> bal l0 (ob_put s x Gone) (minus G [x]) /\ less s (ob_put s x Gone)).
    { intros R ->. assert (R1 : r = 1) by (pose proof (bal_some _ _ _ B x k r [] L EX); lia). subst r. split.
      - eapply bal_ext; [apply (bal_put l0 s G x Gone); try assumption; try (intros; discriminate)|].
        + intros y I. destruct I.
        + intros y LY. rewrite EX. cbn [refs kids]. unfold minus. rewrite cnt_cons, !cnt_nil. rewrite (Nat.eqb_sym y x). destruct (x =? y)%nat; lia.
      - split; [apply put_next|]. split; [reflexivity|]. intros y k0 r0 l1 Q. rewrite put_at in Q by exact LT. destruct (Nat.eqb_spec y x) as [->|N]; [discriminate Q|eauto]. }
    destruct r as [|[|r]].
    + destruct l; [|discriminate E]. injection E as <-. apply GONE; auto.
    + destruct l; [|discriminate E]. injection E as <-. apply GONE; auto.
    + injection E as <-. apply DEC. reflexivity.
  - assert (EACH : forall l s G s', bal l0 s G -> Forall (fun y => List.length l0 <= y) l -> each_release d l s = Ok s' -> bal l0 s' (minus G l) /\ less s s').
    { clear E B s G s' x L. induction l as [|y l IHl]; intros s G s' B F E.
      - injection E as <-. split; [|apply less_refl]. eapply bal_ext; [exact B|]. intros z _. unfold minus. rewrite cnt_nil. lia.
      - inversion F; subst. cbn [each_release] in E. destruct (release d s y) as [s1|k] eqn:E1; [|discriminate E]. cbn [obind] in E. destruct (IH _ _ _ _ B H1 E1) as [B1 L1]. destruct (IHl _ _ _ B1 H2 E) as [B2 L2].
        split; [|eapply less_trans; eauto]. eapply bal_ext; [exact B2|]. intros z _. unfold minus. rewrite !cnt_cons, cnt_nil. lia. }
    cbn [release] in E. destruct (ob_at s x) as [k r l|] eqn:EX; [|discriminate E]. pose proof (alive_lt _ _ _ _ _ EX) as LT.
    assert (KL : Forall (fun y => List.length l0 <= y) l). { apply Forall_forall. intros y I. apply (bal_kids _ _ _ B x y L). rewrite EX. exact I. }
    assert (GONE : r = 0 \/ r = 1 -> each_release d l (ob_put s x Gone) = Ok s' -> bal l0 s' (minus G [x]) /\ less s s').
    { intros R Q. assert (R1 : r = 1) by (pose proof (bal_some _ _ _ B x k r l L EX); lia). subst r.
      assert (B1 : bal l0 (ob_put s x Gone) (fun y => (G y - cnt [x] y + cnt l y)%Z)).
      { eapply bal_ext; [apply (bal_put l0 s G x Gone); try assumption; try (intros; discriminate)|].
        - intros y I. destruct I.
        - intros y LY. rewrite EX. cbn [refs kids]. rewrite cnt_cons, !cnt_nil. rewrite (Nat.eqb_sym y x). destruct (x =? y)%nat; lia. }
      destruct (EACH _ _ _ _ B1 KL Q) as [B2 L2]. split; [eapply bal_ext; [exact B2|]; intros y _; unfold minus; lia|].
      eapply less_trans; [|exact L2]. split; [apply put_next|]. split; [reflexivity|]. intros y k0 r0 l1 Q1. rewrite put_at in Q1 by exact LT. destruct (Nat.eqb_spec y x) as [->|N]; [discriminate Q1|eauto]. }
    destruct r as [|[|r]].
    + apply GONE; [auto|exact E].
    + apply GONE; [auto|exact E].
    + injection E as <-. split.
      * eapply bal_ext; [apply (bal_put l0 s G x (Alive k (S r) l)); try assumption|].
        -- cbn [kids]. intros y I. apply (bal_kids _ _ _ B x). exact L. rewrite EX. exact I.
        -- intros y k0 r0 l0' k' r'' l' Q I EY. injection Q as <- <- <-. destruct (Nat.eqb_spec y x) as [->|N]; [injection EY as <- <- <-; eapply (bal_level _ _ _ B x x); eauto|eapply (bal_level _ _ _ B x y); eauto].
        -- intros k0 r0 l0' Q. injection Q as <- <- <-. lia.
        -- intros k0 r0 l0' Q. injection Q as <- <- <-. eauto.
        -- intros y LY. rewrite EX. cbn [refs kids]. unfold minus. rewrite cnt_cons, cnt_nil. rewrite (Nat.eqb_sym y x). destruct (x =? y)%nat; lia.
      * split; [apply put_next|]. split; [reflexivity|]. intros y k0 r0 l1 Q. rewrite put_at in Q by exact LT. destruct (Nat.eqb_spec y x) as [->|N]; [injection Q as <- <- <-; eauto|eauto].
Qed.

(** An object in hand can be released. *)
Definition fair (G : nat -> Z) : Prop := forall y, (0 <= G y)%Z.
Lemma release_ok : forall l0 d s G x k r l, bal l0 s G -> fair G -> List.length l0 <= x -> (1 <= G x)%Z -> ob_at s x = Alive k r l -> level k <= d -> exists s', release d s x = Ok s'.
Proof.
  intros l0. induction d as [|d IH]; intros s G x k r l B FG L GX EX LV.
  - cbn [release]. rewrite EX. assert (NK : l = []).
    { destruct l as [|y l]; [reflexivity|]. exfalso. assert (I : In y (kids (ob_at s x))) by (rewrite EX; left; reflexivity).
      pose proof (kid_held _ _ _ _ _ B L I) as H. destruct (bal_kids _ _ _ B _ _ L I) as [LY _]. pose proof (bal_refs _ _ _ B y LY) as R. destruct (alive_refs _ _ _ _ B LY ltac:(pose proof (FG y); lia)) as (k' & r' & l' & EY).
      pose proof (bal_level _ _ _ B x y k r (y :: l) k' (S r') l' L EX (or_introl eq_refl) EY). lia. }
    subst l. destruct r as [|[|r]]; eauto.
  - assert (EACH : forall m s G, bal l0 s G -> fair (minus G m) -> Forall (fun y => List.length l0 <= y) m -> (forall y k r l, In y m -> ob_at s y = Alive k r l -> level k <= d) -> exists s', each_release d m s = Ok s').
    { clear B FG GX EX LV s G. induction m as [|y m IHm]; intros s G B FG FL LV; [cbn; eauto|]. inversion FL; subst.
      assert (GY : (1 <= G y)%Z). { pose proof (FG y) as Q. unfold minus in Q. rewrite cnt_cons, Nat.eqb_refl in Q. pose proof (cnt_pos m y). lia. }
      pose proof (bal_refs _ _ _ B y H1) as R. pose proof (holders_pos (skipn (List.length l0) (ob_list s)) y). destruct (alive_refs _ _ _ _ B H1 ltac:(lia)) as (k' & r' & l' & EY).
      assert (FG0 : fair G). { intros z. pose proof (FG z) as Q. unfold minus in Q. pose proof (cnt_pos (y :: m) z). lia. }
      destruct (IH _ _ _ _ _ _ B FG0 H1 GY EY (LV _ _ _ _ (or_introl eq_refl) EY)) as [s1 E1]. destruct (release_bal _ _ _ _ _ _ B H1 E1) as [B1 L1].
      cbn [each_release]. rewrite E1. cbn [obind]. apply (IHm _ _ B1).
      - intros z. pose proof (FG z) as Q. unfold minus in *. rewrite !cnt_cons in *. rewrite cnt_nil. lia.
      - exact H2.
      - intros z k0 r0 l1 I EZ. destruct L1 as (_ & _ & A). destruct (A _ _ _ _ EZ) as [r2 E2]. eapply LV; [right; exact I|exact E2]. }
    cbn [release]. rewrite EX. pose proof (alive_lt _ _ _ _ _ EX) as LT.
    assert (GONE : r = 1 -> exists s', each_release d l (ob_put s x Gone) = Ok s').
    { intros ->. assert (B1 : bal l0 (ob_put s x Gone) (fun y => (G y - cnt [x] y + cnt l y)%Z)).
      { eapply bal_ext; [apply (bal_put l0 s G x Gone); try assumption; try (intros; discriminate)|].
        - intros y I. destruct I.
        - intros y LY. rewrite EX. cbn [refs kids]. rewrite cnt_cons, !cnt_nil. rewrite (Nat.eqb_sym y x). destruct (x =? y)%nat; lia. }
      apply (EACH l _ _ B1).
      - intros y. unfold minus. rewrite cnt_cons, cnt_nil. pose proof (FG y). destruct (Nat.eqb_spec x y) as [->|N]; lia.
      - apply Forall_forall. intros y I. apply (bal_kids _ _ _ B x y L). rewrite EX. exact I.
      - intros y k0 r0 l1 I EY. rewrite put_at in EY by exact LT. destruct (Nat.eqb_spec y x) as [->|N]; [discriminate EY|]. pose proof (bal_level _ _ _ B x y k 1 l k0 r0 l1 L EX I EY). lia. }
    destruct r as [|[|r]]; [|apply GONE; reflexivity|eauto]. pose proof (bal_some _ _ _ B x k 0 l L EX). lia.
Qed.
