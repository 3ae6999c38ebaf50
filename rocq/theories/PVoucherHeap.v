(** Proofs about the memory owned by a voucher. *)
From Coq Require Import Permutation.
From Verif Require Import Base PBase MBase64 MSerialize MOs MVoucher MHeap MVoucherHeap SHeap SArray SVoucherHeap PHeap PArray.
Open Scope N_scope.

Lemma nth_set : forall l i v j, nth_error (set_nthv l i v) j = if Nat.eqb i j then (match nth_error l j with Some _ => Some v | None => None end) else nth_error l j.
Proof.
  induction l as [|x l IH]; intros i v j; cbn [set_nthv].
  - destruct (Nat.eqb i j); destruct j; reflexivity.
  - destruct i as [|i]; destruct j as [|j]; cbn [nth_error Nat.eqb]; try reflexivity. apply IH.
Qed.
Lemma set_length : forall l i v, List.length (set_nthv l i v) = List.length l.
Proof. induction l as [|x l IH]; intros [|i] v; cbn; auto. Qed.

Definition pf : list nat := [0; 1; 3; 5; 7; 9]%nat.
Definition lf : list nat := [2; 4; 6; 8; 10]%nat.
Definition shape (fs : list val) : Prop :=
  (forall i, In i pf -> exists p, nth_error fs i = Some (P p)) /\ (forall j, In j lf -> exists z, nth_error fs j = Some (I z)).

Definition nz (a : N) : list N := if a =? 0 then [] else [a].

Lemma pf_nodup : NoDup pf. Proof. repeat constructor; cbn; intuition congruence. Qed.
Lemma pf_lf : forall i, In i pf -> ~ In i lf. Proof. cbn. intuition congruence. Qed.

Lemma own_nz : forall l fs, own l fs = flat_map (fun i => nz (ptr_at fs i)) l.
Proof. intros l fs. unfold own, nz. induction l as [|i l IH]; [reflexivity|]. cbn [map filter flat_map]. rewrite <- IH. destruct (ptr_at fs i =? 0); reflexivity. Qed.

Lemma ptr_set_same : forall fs i c x, nth_error fs i = Some x -> ptr_at (set_nthv fs i (P c)) i = c.
Proof. intros fs i c x H. unfold ptr_at. rewrite nth_set, Nat.eqb_refl, H. reflexivity. Qed.
Lemma ptr_set_other : forall fs i j v, i <> j -> ptr_at (set_nthv fs i v) j = ptr_at fs j.
Proof. intros fs i j v H. unfold ptr_at. rewrite nth_set. rewrite (proj2 (Nat.eqb_neq _ _) H). reflexivity. Qed.

Lemma flat_map_ext_in' : forall A B (f g : A -> list B) l, (forall x, In x l -> f x = g x) -> flat_map f l = flat_map g l.
Proof. induction l as [|x l IH]; intros H; [reflexivity|]. cbn [flat_map]. rewrite H by (left; reflexivity). rewrite IH; [reflexivity|]. intros y Hy. apply H. right. exact Hy. Qed.

Lemma own_set_len : forall fs j z, In j lf -> own pf (set_nthv fs j (I z)) = own pf fs.
Proof.
  intros fs j z Hj. rewrite !own_nz. apply flat_map_ext_in'. intros i Hi. rewrite ptr_set_other; [reflexivity|]. intros ->. exact (pf_lf _ Hi Hj).
Qed.

Lemma own_set_ptr : forall fs i c, In i pf -> shape fs -> Permutation (own pf (set_nthv fs i (P c)) ++ nz (ptr_at fs i)) (nz c ++ own pf fs).
Proof.
  intros fs i c Hi [Hs _]. destruct (Hs i Hi) as [p Hp]. rewrite !own_nz. pose proof pf_nodup as Nd. apply in_split in Hi. destruct Hi as [u [w E]]. rewrite E in *.
  apply NoDup_remove_2 in Nd. rewrite !flat_map_app. cbn [flat_map]. rewrite (ptr_set_same _ _ _ _ Hp).
  assert (H1 : flat_map (fun j => nz (ptr_at (set_nthv fs i (P c)) j)) u = flat_map (fun j => nz (ptr_at fs j)) u).
  { apply flat_map_ext_in'. intros j Hj. rewrite ptr_set_other; [reflexivity|]. intros ->. apply Nd. apply in_or_app. left. exact Hj. }
  assert (H2 : flat_map (fun j => nz (ptr_at (set_nthv fs i (P c)) j)) w = flat_map (fun j => nz (ptr_at fs j)) w).
  { apply flat_map_ext_in'. intros j Hj. rewrite ptr_set_other; [reflexivity|]. intros ->. apply Nd. apply in_or_app. right. exact Hj. }
  rewrite H1, H2. set (U := flat_map _ u). set (W := flat_map _ w).
  transitivity (nz c ++ U ++ W ++ nz (ptr_at fs i)).
  - rewrite <- !app_assoc. apply Permutation_app_swap_app.
  - apply Permutation_app_head. apply Permutation_app_head. apply Permutation_app_comm.
Qed.

(** *** Ownership: exactly the voucher, what it points to and [lk] are live. *)
Definition core (base : N) (h : heap) (v : N) (fs : list val) (lk : list N) : Prop :=
  heap_wf h /\ base <= hp_next h /\ v <> 0 /\ hp_cell h v = Live (Struct fs) /\ shape fs /\
  NoDup (v :: own pf fs ++ lk) /\ (forall a, In a (v :: own pf fs ++ lk) -> base <= a) /\
  (forall a, base <= a -> (is_live h a <-> In a (v :: own pf fs ++ lk))).

Lemma core_perm : forall base h v fs lk lk', Permutation lk lk' -> core base h v fs lk -> core base h v fs lk'.
Proof.
  intros base h v fs lk lk' Hp (W & B & V & C & S & D & G & L).
  assert (Q : Permutation (v :: own pf fs ++ lk) (v :: own pf fs ++ lk')) by (constructor; apply Permutation_app_head; exact Hp).
  repeat (split; [assumption|]). split; [exact (Permutation_NoDup Q D)|]. split.
  - intros a Ha. apply G. exact (Permutation_in _ (Permutation_sym Q) Ha).
  - intros a Ha. rewrite (L a Ha). split; intros Hin; [exact (Permutation_in _ Q Hin)|exact (Permutation_in _ (Permutation_sym Q) Hin)].
Qed.

Lemma wf_ext : forall h h', hp_next h' = hp_next h -> (forall a, hp_cell h' a = hp_cell h a) -> heap_wf h -> heap_wf h'.
Proof. intros h h' E C [W1 [W2 W3]]. split; [lia|]. split; [rewrite C; exact W2|]. intros a Ha. rewrite C. apply W3. lia. Qed.

Lemma core_ext : forall base h h' v fs lk, hp_next h' = hp_next h -> (forall a, hp_cell h' a = hp_cell h a) -> core base h v fs lk -> core base h' v fs lk.
Proof.
  intros base h h' v fs lk E Cc (W & B & V & C & S & D & G & L). split; [eapply wf_ext; eassumption|]. split; [lia|]. split; [exact V|]. split; [rewrite Cc; exact C|]. split; [exact S|]. split; [exact D|]. split; [exact G|].
  intros a Ha. rewrite <- (L a Ha). unfold is_live. rewrite Cc. reflexivity.
Qed.

Lemma put_live_wf : forall h a b c, heap_wf h -> hp_cell h a = Live b -> heap_wf (put h a c).
Proof.
  intros h a b c [W1 [W2 W3]] E. split; [exact W1|]. split; [rewrite put_other by congruence; exact W2|]. intros x Hx. cbn [put hp_next] in Hx. rewrite put_other; [apply W3; exact Hx|]. intros ->. rewrite W3 in E by exact Hx. discriminate.
Qed.

Lemma shape_set_len : forall fs j z, In j lf -> shape fs -> shape (set_nthv fs j (I z)).
Proof.
  intros fs j z Hj [S1 S2]. split.
  - intros i Hi. destruct (S1 i Hi) as [p Hp]. exists p. rewrite nth_set. destruct (Nat.eqb j i) eqn:E; [|exact Hp]. apply Nat.eqb_eq in E. subst. exfalso. exact (pf_lf _ Hi Hj).
  - intros i Hi. destruct (S2 i Hi) as [y Hy]. rewrite nth_set. destruct (Nat.eqb j i); [rewrite Hy; eauto|eauto].
Qed.
Lemma shape_set_ptr : forall fs i c, In i pf -> shape fs -> shape (set_nthv fs i (P c)).
Proof.
  intros fs i c Hi [S1 S2]. split.
  - intros j Hj. destruct (S1 j Hj) as [y Hy]. rewrite nth_set. destruct (Nat.eqb i j); [rewrite Hy; eauto|eauto].
  - intros j Hj. destruct (S2 j Hj) as [p Hp]. exists p. rewrite nth_set. destruct (Nat.eqb i j) eqn:E; [|exact Hp]. apply Nat.eqb_eq in E. subst. exfalso. exact (pf_lf _ Hi Hj).
Qed.

Definition wr (h : heap) (v : N) (fs : list val) : heap := put h v (Live (Struct fs)).

Lemma core_set_len : forall base h v fs lk j z, core base h v fs lk -> In j lf ->
  set_field h v j (I z) = Ok (wr h v (set_nthv fs j (I z))) /\ core base (wr h v (set_nthv fs j (I z))) v (set_nthv fs j (I z)) lk.
Proof.
  intros base h v fs lk j z (W & B & V & C & S & D & G & L) Hj. destruct (proj2 S j Hj) as [y Hy].
  split; [exact (set_field_at _ _ _ _ _ _ V C Hy)|]. split; [eapply put_live_wf; eassumption|]. split; [exact B|]. split; [exact V|]. split; [apply put_same|].
  split; [apply shape_set_len; assumption|]. rewrite own_set_len by exact Hj. split; [exact D|]. split; [exact G|].
  intros a Ha. rewrite <- (L a Ha). unfold is_live, wr. destruct (N.eq_dec a v) as [->|Hne]; [rewrite put_same, C; split; intros _; eauto|rewrite put_other by exact Hne; reflexivity].
Qed.

(** Storing the address of an unowned block (or NULL); what was there before is
    no longer owned. *)
Lemma core_set_ptr : forall base h v fs lk i c, core base h v fs (nz c ++ lk) -> In i pf ->
  set_field h v i (P c) = Ok (wr h v (set_nthv fs i (P c))) /\
  core base (wr h v (set_nthv fs i (P c))) v (set_nthv fs i (P c)) (nz (ptr_at fs i) ++ lk).
Proof.
  intros base h v fs lk i c (W & B & V & C & S & D & G & L) Hi. destruct (proj1 S i Hi) as [y Hy].
  assert (Q : Permutation (v :: own pf fs ++ nz c ++ lk) (v :: own pf (set_nthv fs i (P c)) ++ nz (ptr_at fs i) ++ lk)).
  { constructor. rewrite !app_assoc. apply Permutation_app_tail. transitivity (nz c ++ own pf fs); [apply Permutation_app_comm|]. symmetry. apply own_set_ptr; assumption. }
  split; [exact (set_field_at _ _ _ _ _ _ V C Hy)|]. split; [eapply put_live_wf; eassumption|]. split; [exact B|]. split; [exact V|]. split; [apply put_same|].
  split; [apply shape_set_ptr; assumption|]. split; [exact (Permutation_NoDup Q D)|]. split.
  - intros a Ha. apply G. exact (Permutation_in _ (Permutation_sym Q) Ha).
  - intros a Ha. assert (E : is_live (wr h v (set_nthv fs i (P c))) a <-> is_live h a).
    { unfold is_live, wr. destruct (N.eq_dec a v) as [->|Hne]; [rewrite put_same, C; split; intros _; eauto|rewrite put_other by exact Hne; reflexivity]. }
    rewrite E, (L a Ha). split; intros Hin; [exact (Permutation_in _ Q Hin)|exact (Permutation_in _ (Permutation_sym Q) Hin)].
Qed.

(** A fresh block is unowned. *)
Lemma core_alloc : forall base h v fs lk b c h', core base h v fs lk -> alloc h b = (c, h') -> core base h' v fs (nz c ++ lk).
Proof.
  intros base h v fs lk b c h' (W & B & V & C & S & D & G & L) E.
  destruct (alloc_cases h b W) as [a [h1 [Ea [W1 [Hn [Ho Cs]]]]]]. rewrite E in Ea. injection Ea as <- <-.
  destruct Cs as [[-> [_ Cx]]|[Ha [A0 [_ [Cc [Cf Cx]]]]]].
  - unfold nz. cbn [N.eqb app]. split; [exact W1|]. split; [lia|]. split; [exact V|]. split; [rewrite Cx; exact C|]. split; [exact S|]. split; [exact D|]. split; [exact G|].
    intros a Ha. rewrite <- (L a Ha). unfold is_live. rewrite Cx. reflexivity.
  - unfold nz. rewrite (proj2 (N.eqb_neq _ _) A0). cbn [app].
    assert (Hni : ~ In c (v :: own pf fs ++ lk)). { intros Hin. apply L in Hin; [|apply G; exact Hin]. destruct Hin as [x Hx]. congruence. }
    assert (Q : Permutation (c :: v :: own pf fs ++ lk) (v :: own pf fs ++ c :: lk)).
    { transitivity (v :: c :: own pf fs ++ lk); [apply perm_swap|]. constructor. apply Permutation_middle. }
    split; [exact W1|]. split; [lia|]. split; [exact V|]. split; [rewrite Cx by congruence; exact C|]. split; [exact S|].
    split; [apply (Permutation_NoDup Q); constructor; assumption|]. split.
    + intros a Hin. apply (Permutation_in _ (Permutation_sym Q)) in Hin. destruct Hin as [<-|Hin]; [lia|apply G; exact Hin].
    + intros a Hb. assert (E2 : is_live h' a <-> In a (c :: v :: own pf fs ++ lk)).
      { cbn [In]. destruct (N.eq_dec a c) as [->|Hne].
        - split; intros _; [left; reflexivity|exists b; exact Cc].
        - unfold is_live. rewrite Cx by exact Hne. fold (is_live h a). rewrite (L a Hb). split; [intros X; right; exact X|intros [X|X]; [congruence|exact X]]. }
      rewrite E2. split; intros Hin; [exact (Permutation_in _ Q Hin)|exact (Permutation_in _ (Permutation_sym Q) Hin)].
Qed.

(** Releasing an unowned block. *)
Lemma core_free : forall base h v fs lk p, core base h v fs (p :: lk) -> p <> 0 ->
  sys_free h p = Ok (put h p Freed) /\ core base (put h p Freed) v fs lk.
Proof.
  intros base h v fs lk p (W & B & V & C & S & D & G & L) P0.
  assert (Q : Permutation (p :: v :: own pf fs ++ lk) (v :: own pf fs ++ p :: lk)).
  { transitivity (v :: p :: own pf fs ++ lk); [apply perm_swap|]. constructor. apply Permutation_middle. }
  pose proof (Permutation_NoDup (Permutation_sym Q) D) as D'. inversion D' as [|? ? D1 D2]; subst.
  assert (Hin : In p (v :: own pf fs ++ p :: lk)) by (right; apply in_or_app; right; left; reflexivity).
  destruct (proj2 (L p (G p Hin)) Hin) as [b Hb].
  split; [unfold sys_free; rewrite (proj2 (N.eqb_neq _ _) P0), Hb; reflexivity|].
  split; [eapply put_live_wf; eassumption|]. split; [exact B|]. split; [exact V|]. split; [rewrite put_other; [exact C|intros ->; apply D1; left; reflexivity]|]. split; [exact S|]. split; [exact D2|].
  split; [intros a Ha; apply G; exact (Permutation_in _ Q (or_intror Ha))|].
  intros a Ha. destruct (N.eq_dec a p) as [->|Hne].
  - split; [intros [x Hx]; rewrite put_same in Hx; discriminate|contradiction].
  - unfold is_live. rewrite put_other by exact Hne. fold (is_live h a). rewrite (L a Ha). split; intros Hx.
    + apply (Permutation_in _ (Permutation_sym Q)) in Hx. destruct Hx as [Hx|Hx]; [congruence|exact Hx].
    + exact (Permutation_in _ Q (or_intror Hx)).
Qed.

(** *** Contents *)
Definition arr_at (h : heap) (fs : list val) (i : nat) (x : option bytes) : Prop :=
  match x with
  | None => ptr_at fs i = 0 /\ nth_error fs (i + 1) = Some (I 0)
  | Some d => ptr_at fs i <> 0 /\ hp_cell h (ptr_at fs i) = Live (Buf d) /\ nth_error fs (i + 1) = Some (I (Z.of_N (blen d)))
  end.
Definition ser_at (h : heap) (fs : list val) (x : option bytes) : Prop :=
  match x with
  | None => ptr_at fs 0 = 0
  | Some s => ptr_at fs 0 <> 0 /\ exists d, hp_cell h (ptr_at fs 0) = Live (Buf d) /\ In 0 d /\ c_string d = s
  end.
Definition vals (h : heap) (fs : list val) (f : attr -> option bytes) : Prop :=
  ser_at h fs (f ASerial) /\ forall a i, arr_field a = Some i -> arr_at h fs i (f a).
Definition vstate (base : N) (h : heap) (v : N) (f : attr -> option bytes) (lk : list N) : Prop :=
  exists fs, core base h v fs lk /\ vals h fs f.

Lemma arr_field_in : forall a i, arr_field a = Some i -> In i pf /\ In (i + 1)%nat lf /\ i <> 0%nat /\ a <> ASerial.
Proof. intros a i H. destruct a; try discriminate; injection H as <-; cbn; intuition congruence. Qed.
Lemma arr_field_inj : forall a b i j, arr_field a = Some i -> arr_field b = Some j -> a <> b -> i <> j /\ i <> (j + 1)%nat /\ (i + 1)%nat <> j.
Proof. intros a b i j Ha Hb Hn. destruct a; try discriminate; destruct b; try discriminate; injection Ha as <-; injection Hb as <-; try congruence; lia. Qed.

Lemma own_in : forall fs i, In i pf -> ptr_at fs i <> 0 -> In (ptr_at fs i) (own pf fs).
Proof.
  intros fs i Hi Hp. unfold own. apply filter_In. split; [apply in_map; exact Hi|]. rewrite (proj2 (N.eqb_neq _ _) Hp). reflexivity.
Qed.
Lemma own_live : forall base h v fs lk i, core base h v fs lk -> In i pf -> ptr_at fs i <> 0 -> is_live h (ptr_at fs i) /\ ptr_at fs i <> v.
Proof.
  intros base h v fs lk i (W & B & V & C & S & D & G & L) Hi Hp. pose proof (own_in fs i Hi Hp) as Ho.
  assert (Hin : In (ptr_at fs i) (v :: own pf fs ++ lk)) by (right; apply in_or_app; left; exact Ho).
  split; [apply L; [apply G; exact Hin|exact Hin]|]. intros E. rewrite E in Ho. apply NoDup_cons_iff in D. apply (proj1 D). apply in_or_app. left. exact Ho.
Qed.

(** The other attributes are unaffected when their fields and the blocks they
    point to are. *)
Lemma vals_upd : forall base h v fs lk h' fs' f a x, core base h v fs lk -> vals h fs f ->
  (forall y, y <> v -> is_live h y -> hp_cell h' y = hp_cell h y) ->
  (a <> ASerial -> ptr_at fs' 0 = ptr_at fs 0) ->
  (forall b i, arr_field b = Some i -> b <> a -> ptr_at fs' i = ptr_at fs i /\ nth_error fs' (i + 1) = nth_error fs (i + 1)) ->
  (a = ASerial -> ser_at h' fs' x) -> (forall i, arr_field a = Some i -> arr_at h' fs' i x) ->
  vals h' fs' (upd f a x).
Proof.
  intros base h v fs lk h' fs' f a x Hc [V1 V2] Hk H0 Hb Hs Ha. split.
  - unfold upd. destruct (attr_dec a ASerial) as [E|E]; [apply Hs; exact E|].
    unfold ser_at in *. destruct (f ASerial) as [s|]; rewrite (H0 E); [|exact V1]. destruct V1 as [P1 [d [P2 P3]]]. split; [exact P1|]. exists d.
    destruct (own_live _ _ _ _ _ 0%nat Hc (or_introl eq_refl) P1) as [Q1 Q2]. rewrite Hk by assumption. auto.
  - intros b i Hi. unfold upd. destruct (attr_dec a b) as [<-|E]; [apply Ha; exact Hi|]. destruct (Hb b i Hi (not_eq_sym E)) as [E1 E2]. specialize (V2 b i Hi).
    unfold arr_at in *. destruct (f b) as [d|]; rewrite E1, E2; [|exact V2]. destruct V2 as [P1 [P2 P3]]. split; [exact P1|]. split; [|exact P3].
    destruct (own_live _ _ _ _ _ i Hc (proj1 (arr_field_in _ _ Hi)) P1) as [Q1 Q2]. rewrite Hk by assumption. exact P2.
Qed.


Lemma nz_len_arr : forall h fs i x, arr_at h fs i x -> List.length (nz (ptr_at fs i)) = held x.
Proof. intros h fs i [d|] H; cbn [arr_at] in H; unfold nz; [rewrite (proj2 (N.eqb_neq _ _) (proj1 H))|rewrite (proj1 H)]; reflexivity. Qed.
Lemma nz_len_ser : forall h fs x, ser_at h fs x -> List.length (nz (ptr_at fs 0)) = held x.
Proof. intros h fs [d|] H; cbn [ser_at] in H; unfold nz; [rewrite (proj2 (N.eqb_neq _ _) (proj1 H))|rewrite H]; reflexivity. Qed.

(** What an operation may do to the rest of the heap. *)
Definition gentle (base : N) (h h' : heap) : Prop := kept base h h' /\ hp_oom h' = hp_oom h /\ hp_next h <= hp_next h'.

Lemma copy_step : forall base h v fs f lk a i s so p n d,
  core base h v fs lk -> vals h fs f -> arr_field a = Some i -> s <> 0 ->
  let fs1 := set_nthv fs (i + 1) (I 0) in
  get_ptr (wr h v fs1) s so = Ok p -> get_int (wr h v fs1) s (so + 1) = Ok (Z.of_N n) ->
  p <> 0 -> hp_cell h p = Live (Buf d) -> n <= blen d ->
  (forall c h2, alloc (wr h v fs1) (Buf (firstn (N.to_nat n) d)) = (c, h2) -> c <> 0 -> get_int (wr h2 v (set_nthv fs1 i (P c))) s (so + 1) = Ok (Z.of_N n)) ->
  exists rc h' old, h_copy_binary_array h (v, i) (s, so) = Ok (rc, h') /\ gentle base h h' /\
    (forall y, y <> v -> is_live h y -> hp_cell h' y = hp_cell h y) /\ (hp_next h < hp_next h' /\ List.length old = held (f a)) /\
    ((rc = (-1)%Z /\ hp_oom h (hp_next h) = true /\ vstate base h' v (upd f a None) (old ++ lk)) \/
     (rc = 0%Z /\ hp_oom h (hp_next h) = false /\ vstate base h' v (upd f a (Some (firstn (N.to_nat n) d))) (old ++ lk))).
Proof.
  intros base h v fs f lk a i s so p n d Hc Hv Hi S0 fs1 R1 R2 P0 Pc Hn R3.
  destruct (arr_field_in _ _ Hi) as [Ip [Il [I0 Ia]]].
  destruct (core_set_len base h v fs lk (i + 1) 0 Hc Il) as [E1 C1]. fold fs1 in E1, C1.
  pose proof Hc as (W & B & V & Cv & Sh & D & G & L).
  assert (Hpv : p <> v) by (intros ->; congruence).
  assert (Vb : base <= v) by (apply G; left; reflexivity).
  unfold h_copy_binary_array. cbn [fst snd]. rewrite (proj2 (N.eqb_neq _ _) S0). rewrite E1. cbn [obind]. rewrite R1. cbn [obind]. rewrite R2. cbn [obind].
  unfold heap_memdup. rewrite (proj2 (N.eqb_neq _ _) P0). rewrite N2Z.id.
  assert (Hlb : load_buf (wr h v fs1) p = Ok (Some d)). { unfold load_buf. rewrite (proj2 (N.eqb_neq _ _) P0). unfold wr. rewrite put_other by exact Hpv. rewrite Pc. reflexivity. }
  assert (Ho : hp_oom (wr h v fs1) (hp_next (wr h v fs1)) = hp_oom h (hp_next h)) by reflexivity.
  assert (P1 : ptr_at fs1 i = ptr_at fs i) by (unfold fs1; apply ptr_set_other; lia).
  assert (Hold : List.length (nz (ptr_at fs1 i)) = held (f a)).
  { rewrite P1. rewrite (nz_len_arr h fs i (f a)); [reflexivity|]. apply Hv. exact Hi. }
  destruct (hp_oom h (hp_next h)) eqn:Oom.
  - rewrite Ho. destruct (alloc (wr h v fs1) (Buf [])) as [c h2] eqn:Ea. cbn [obind].
    pose proof (core_alloc _ _ _ _ _ _ _ _ C1 Ea) as C2.
    unfold alloc in Ea. rewrite Ho in Ea. injection Ea as <- <-.
    destruct (core_set_ptr _ _ _ _ _ i 0 C2 Ip) as [E3 C3]. rewrite E3. cbn [obind N.eqb].
    eexists _, _, _. split; [reflexivity|]. split; [|split; [|split; [split; [cbn; lia|exact Hold]|left]]].
    + split; [|split; [reflexivity|cbn; lia]]. intros x Hx. unfold wr, put. cbn [hp_cell]. rewrite (proj2 (N.eqb_neq x v)) by lia. reflexivity.
    + intros y Hy _. unfold wr, put. cbn [hp_cell]. rewrite (proj2 (N.eqb_neq y v) Hy). reflexivity.
    + split; [reflexivity|]. split; [reflexivity|]. eexists. split; [exact C3|].
      eapply vals_upd; [exact Hc|exact Hv| | | | |].
      * intros y Hy _. unfold wr, put. cbn [hp_cell]. rewrite (proj2 (N.eqb_neq y v) Hy). reflexivity.
      * intros _. rewrite ptr_set_other by lia. unfold fs1. apply ptr_set_other. lia.
      * intros b j Hj Hb. destruct (arr_field_inj _ _ _ _ Hi Hj (not_eq_sym Hb)) as [J1 [J2 J3]].
        rewrite ptr_set_other by lia. unfold fs1 at 1. rewrite ptr_set_other by lia. split; [reflexivity|].
        rewrite nth_set. replace (Nat.eqb i (j + 1)) with false by (symmetry; apply Nat.eqb_neq; lia). unfold fs1. rewrite nth_set.
        replace (Nat.eqb (i + 1) (j + 1)) with false by (symmetry; apply Nat.eqb_neq; lia). reflexivity.
      * intros E. congruence.
      * intros j Hj. rewrite Hi in Hj. injection Hj as <-. destruct (proj1 Sh i Ip) as [q Hq]. destruct (proj2 Sh (i + 1)%nat Il) as [z Hz]. split.
        -- eapply ptr_set_same. unfold fs1. rewrite nth_set. replace (Nat.eqb (i + 1) i) with false by (symmetry; apply Nat.eqb_neq; lia). exact Hq.
        -- rewrite nth_set. replace (Nat.eqb i (i + 1)) with false by (symmetry; apply Nat.eqb_neq; lia). unfold fs1. rewrite nth_set, Nat.eqb_refl, Hz. reflexivity.
  - rewrite Ho. rewrite Hlb. cbn [obind]. unfold sys_memdup. cbn [negb]. unfold take_mem. rewrite (proj2 (N.leb_le _ _) Hn). cbn [obind].
    set (cc := firstn (N.to_nat n) d) in *.
    assert (Hcl : blen cc = n) by (unfold cc, blen in *; rewrite firstn_length; lia).
    destruct (alloc (wr h v fs1) (Buf cc)) as [c h2] eqn:Ea. cbn [obind].
    pose proof (core_alloc _ _ _ _ _ _ _ _ C1 Ea) as C2.
    assert (Hc0 : c = hp_next h /\ c <> 0 /\ h2 = put (mk_heap (hp_next h + 1) (hp_cell (wr h v fs1)) (hp_oom h)) (hp_next h) (Live (Buf cc))).
    { unfold alloc in Ea. rewrite Ho in Ea. injection Ea as <- <-. split; [reflexivity|]. split; [|reflexivity]. destruct W as [W1 _]. cbn. lia. }
    destruct Hc0 as [Hcn [C0 H2]].
    destruct (core_set_ptr _ _ _ _ _ i c C2 Ip) as [E3 C3]. rewrite E3. cbn [obind]. rewrite (proj2 (N.eqb_neq _ _) C0).
    rewrite (R3 c h2 eq_refl C0). cbn [obind].
    destruct (core_set_len _ _ _ _ _ (i + 1) (Z.of_N n) C3 Il) as [E4 C4]. rewrite E4. cbn [obind].
    assert (Fc : hp_cell h c = Fresh) by (destruct W as [_ [_ W3]]; apply W3; lia).
    assert (Hcv : c <> v) by congruence.
    set (fs2 := set_nthv fs1 i (P c)) in *. set (fs3 := set_nthv fs2 (i + 1) (I (Z.of_N n))) in *.
    assert (Hcell : forall y, y <> v -> y <> c -> hp_cell (wr (wr h2 v fs2) v fs3) y = hp_cell h y).
    { intros y Y1 Y2. subst h2 c. unfold wr, put. cbn [hp_cell hp_next]. rewrite (proj2 (N.eqb_neq y v) Y1), (proj2 (N.eqb_neq y (hp_next h)) Y2). reflexivity. }
    assert (Hcc : hp_cell (wr (wr h2 v fs2) v fs3) c = Live (Buf cc)).
    { unfold wr. rewrite !put_other by exact Hcv. subst h2. rewrite Hcn. apply put_same. }
    eexists _, _, _. split; [reflexivity|]. split; [|split; [|split; [split; [try subst h2; cbn; lia|exact Hold]|right]]].
    + split; [|split; [subst h2; reflexivity|subst h2; cbn; lia]]. intros x Hx. apply Hcell; [lia|]. lia.
    + intros y Hy [b Hb]. apply Hcell; [exact Hy|]. congruence.
    + split; [reflexivity|]. split; [reflexivity|]. exists fs3. split; [exact C4|].
      eapply vals_upd; [exact Hc|exact Hv| | | | |].
      * intros y Hy [b Hb]. apply Hcell; [exact Hy|]. congruence.
      * intros _. unfold fs3, fs2, fs1. rewrite !ptr_set_other by lia. reflexivity.
      * intros b j Hj Hb. destruct (arr_field_inj _ _ _ _ Hi Hj (not_eq_sym Hb)) as [J1 [J2 J3]].
        unfold fs3, fs2, fs1. rewrite !ptr_set_other by lia. split; [reflexivity|].
        rewrite !nth_set. replace (Nat.eqb i (j + 1)) with false by (symmetry; apply Nat.eqb_neq; lia).
        replace (Nat.eqb (i + 1) (j + 1)) with false by (symmetry; apply Nat.eqb_neq; lia). reflexivity.
      * intros E. congruence.
      * intros j Hj. rewrite Hi in Hj. injection Hj as <-. destruct (proj1 Sh i Ip) as [q Hq]. destruct (proj2 Sh (i + 1)%nat Il) as [z Hz].
        assert (Hpt : ptr_at fs3 i = c).
        { unfold fs3. rewrite ptr_set_other by lia. eapply ptr_set_same. unfold fs1. rewrite nth_set. replace (Nat.eqb (i + 1) i) with false by (symmetry; apply Nat.eqb_neq; lia). exact Hq. }
        cbn [arr_at]. rewrite Hpt. split; [exact C0|]. split; [exact Hcc|]. rewrite Hcl. unfold fs3. rewrite nth_set, Nat.eqb_refl. unfold fs2. rewrite nth_set.
        replace (Nat.eqb i (i + 1)) with false by (symmetry; apply Nat.eqb_neq; lia). unfold fs1. rewrite nth_set, Nat.eqb_refl, Hz. reflexivity.
Qed.

(** *** Releasing a field *)
Lemma nodup_app_l : forall A (l m : list A), NoDup (l ++ m) -> NoDup l.
Proof. induction l as [|x l IH]; intros m H; [constructor|]. cbn in H. apply NoDup_cons_iff in H. destruct H as [H1 H2]. constructor; [|eapply IH; exact H2]. intros Hin. apply H1. apply in_or_app. left. exact Hin. Qed.
Lemma nodup_app_r : forall A (l m : list A), NoDup (l ++ m) -> NoDup m.
Proof. induction l as [|x l IH]; intros m H; [exact H|]. cbn in H. apply NoDup_cons_iff in H. apply IH. apply H. Qed.

(** Two fields never point to the same block. *)
Lemma own_distinct : forall base h v fs lk i j, core base h v fs lk -> In i pf -> In j pf -> j <> i -> ptr_at fs i <> 0 -> ptr_at fs j <> 0 -> ptr_at fs j <> ptr_at fs i.
Proof.
  intros base h v fs lk i j (W & B & V & C & S & D & G & L) Ip Hj Hji E Hpj Heq.
  apply NoDup_cons_iff in D. destruct D as [_ D]. apply nodup_app_l in D. clear - D Hj Hji Hpj Heq Ip E.
  pose proof pf_nodup as Np. rewrite own_nz in D. revert Np Ip Hj D. generalize pf as l. induction l as [|k l IH]; intros Np Ip Hj D; [contradiction|].
  cbn [flat_map] in D. apply NoDup_cons_iff in Np. destruct Np as [N1 N2]. destruct Ip as [->|Ip], Hj as [->|Hj].
  - congruence.
  - unfold nz at 1 in D. rewrite (proj2 (N.eqb_neq _ _) E) in D. cbn [app] in D. apply NoDup_cons_iff in D. apply (proj1 D). apply in_flat_map. exists j. split; [exact Hj|]. unfold nz. rewrite (proj2 (N.eqb_neq _ _) Hpj). left. congruence.
  - unfold nz at 1 in D. rewrite (proj2 (N.eqb_neq _ _) Hpj) in D. cbn [app] in D. apply NoDup_cons_iff in D. apply (proj1 D). apply in_flat_map. exists i. split; [exact Ip|]. unfold nz. rewrite (proj2 (N.eqb_neq _ _) E). left. congruence.
  - apply IH; [exact N2|exact Ip|exact Hj|]. apply nodup_app_r in D. exact D.
Qed.

Lemma drop_ptr : forall base h v fs lk i, core base h v fs lk -> In i pf -> ptr_at fs i <> 0 ->
  let p := ptr_at fs i in let fs' := set_nthv fs i (P 0) in
  sys_free h p = Ok (put h p Freed) /\ set_field (put h p Freed) v i (P 0) = Ok (wr (put h p Freed) v fs') /\
  core base (wr (put h p Freed) v fs') v fs' lk.
Proof.
  intros base h v fs lk i Hc Hi Hp p fs'.
  destruct (core_set_ptr base h v fs lk i 0 Hc Hi) as [_ C1]. fold fs' in C1. unfold nz in C1. fold p in C1, Hp. rewrite (proj2 (N.eqb_neq _ _) Hp) in C1. cbn [app] in C1.
  destruct (core_free _ _ _ _ _ p C1 Hp) as [_ C2]. destruct (own_live _ _ _ _ _ i Hc Hi Hp) as [[b Hb] Hv]. fold p in Hb, Hv.
  destruct Hc as (W & B & V & C & S & D & G & L). destruct (proj1 S i Hi) as [q Hq].
  split; [unfold sys_free; rewrite (proj2 (N.eqb_neq _ _) Hp), Hb; reflexivity|]. split.
  - eapply set_field_at; [exact V| |exact Hq]. rewrite put_other by congruence. exact C.
  - eapply core_ext; [| |exact C2]; [reflexivity|]. intros a. unfold wr, put. cbn [hp_cell]. destruct (a =? v) eqn:E1; destruct (a =? p) eqn:E2; try reflexivity. apply N.eqb_eq in E1. apply N.eqb_eq in E2. congruence.
Qed.

Lemma free_content_step : forall base h v f lk a i, vstate base h v f lk -> arr_field a = Some i ->
  exists h', h_free_binary_array_content h (v, i) = Ok h' /\ gentle base h h' /\ vstate base h' v (upd f a None) lk.
Proof.
  intros base h v f lk a i [fs [Hc Hv]] Hi. destruct (arr_field_in _ _ Hi) as [Ip [Il [I0 Ia]]].
  pose proof Hc as (W & B & V & C & S & D & G & L). destruct (proj1 S i Ip) as [q Hq]. assert (Hp : ptr_at fs i = q) by (unfold ptr_at; rewrite Hq; reflexivity).
  assert (Vb : base <= v) by (apply G; left; reflexivity).
  unfold h_free_binary_array_content. cbn [fst snd]. rewrite (proj2 (N.eqb_neq _ _) V). rewrite (get_ptr_at _ _ _ _ _ V C Hq). cbn [obind].
  destruct (q =? 0) eqn:E.
  - apply N.eqb_eq in E. cbn [obind]. destruct (core_set_len base h v fs lk (i + 1) 0 Hc Il) as [E1 C1]. rewrite E1. eexists. split; [reflexivity|]. split.
    + split; [|split; [reflexivity|cbn; lia]]. intros x Hx. unfold wr. apply put_other. lia.
    + eexists. split; [exact C1|]. eapply vals_upd; [exact Hc|exact Hv| | | | |].
      * intros y Hy _. unfold wr. apply put_other. exact Hy.
      * intros _. apply ptr_set_other. lia.
      * intros b j Hj Hb. destruct (arr_field_inj _ _ _ _ Hi Hj (not_eq_sym Hb)) as [J1 [J2 J3]]. rewrite ptr_set_other by lia. split; [reflexivity|]. rewrite nth_set.
        replace (Nat.eqb (i + 1) (j + 1)) with false by (symmetry; apply Nat.eqb_neq; lia). reflexivity.
      * intros X. congruence.
      * intros j Hj. rewrite Hi in Hj. injection Hj as <-. destruct (proj2 S (i + 1)%nat Il) as [z Hz]. split; [rewrite ptr_set_other by lia; congruence|]. rewrite nth_set, Nat.eqb_refl, Hz. reflexivity.
  - apply N.eqb_neq in E. rewrite <- Hp in E. destruct (drop_ptr _ _ _ _ _ _ Hc Ip E) as [D1 [D2 D3]]. rewrite Hp in D1, D2, D3.
    rewrite D1. cbn [obind]. rewrite D2. cbn [obind]. set (fs1 := set_nthv fs i (P 0)) in *. destruct (core_set_len _ _ _ _ _ (i + 1) 0 D3 Il) as [E1 C1]. rewrite E1. eexists. split; [reflexivity|].
    destruct (own_live _ _ _ _ _ i Hc Ip E) as [_ Hqv]. assert (Hqb : base <= q). { apply G. right. apply in_or_app. left. rewrite <- Hp. apply own_in; [exact Ip|exact E]. }
    assert (Hcell : forall y, y <> v -> y <> q -> hp_cell (wr (wr (put h q Freed) v fs1) v (set_nthv fs1 (i + 1) (I 0))) y = hp_cell h y).
    { intros y Y1 Y2. unfold wr. rewrite !put_other by assumption. reflexivity. }
    split.
    + split; [|split; [reflexivity|cbn; lia]]. intros x Hx. apply Hcell; lia.
    + eexists. split; [exact C1|].
      (* the released block is not that of another attribute *)
      assert (Nd : forall j, In j pf -> j <> i -> ptr_at fs j <> 0 -> ptr_at fs j <> q).
      { intros j Hj Hji Hpj. rewrite <- Hp. eapply own_distinct; eassumption. }
      destruct Hv as [V1 V2]. split.
      * unfold upd. destruct (attr_dec a ASerial) as [X|_]; [congruence|]. unfold ser_at in *.
        assert (E0 : ptr_at (set_nthv fs1 (i + 1) (I 0)) 0 = ptr_at fs 0) by (unfold fs1; rewrite !ptr_set_other by lia; reflexivity). rewrite E0.
        destruct (f ASerial) as [s|]; [|exact V1]. destruct V1 as [P1 [d [P2 P3]]]. split; [exact P1|]. exists d. rewrite Hcell; [auto| |].
        -- apply (own_live _ _ _ _ _ 0%nat Hc (or_introl eq_refl) P1).
        -- apply Nd; [left; reflexivity|lia|exact P1].
      * intros b j Hj. unfold upd. destruct (attr_dec a b) as [<-|Hb].
        -- rewrite Hi in Hj. injection Hj as <-. destruct (proj2 S (i + 1)%nat Il) as [z Hz]. split.
           ++ rewrite ptr_set_other by lia. unfold fs1. eapply ptr_set_same. exact Hq.
           ++ rewrite nth_set, Nat.eqb_refl. unfold fs1. rewrite nth_set. replace (Nat.eqb i (i + 1)) with false by (symmetry; apply Nat.eqb_neq; lia). rewrite Hz. reflexivity.
        -- destruct (arr_field_inj _ _ _ _ Hi Hj Hb) as [J1 [J2 J3]]. specialize (V2 b j Hj). unfold arr_at in *.
           assert (E0 : ptr_at (set_nthv fs1 (i + 1) (I 0)) j = ptr_at fs j) by (unfold fs1; rewrite !ptr_set_other by lia; reflexivity). rewrite E0.
           assert (E2 : nth_error (set_nthv fs1 (i + 1) (I 0)) (j + 1) = nth_error fs (j + 1)).
           { unfold fs1. rewrite !nth_set. replace (Nat.eqb i (j + 1)) with false by (symmetry; apply Nat.eqb_neq; lia). replace (Nat.eqb (i + 1) (j + 1)) with false by (symmetry; apply Nat.eqb_neq; lia). reflexivity. }
           rewrite E2. destruct (f b) as [d|]; [|exact V2]. destruct V2 as [P1 [P2 P3]]. split; [exact P1|]. split; [|exact P3]. rewrite Hcell; [exact P2| |].
           ++ apply (own_live _ _ _ _ _ j Hc (proj1 (arr_field_in _ _ Hj)) P1).
           ++ apply Nd; [apply (arr_field_in _ _ Hj)|congruence|exact P1].
Qed.

Lemma drop_serial_step : forall base h v f lk, vstate base h v f lk ->
  exists p h', get_ptr h v 0 = Ok p /\
    (if p =? 0 then Ok h else obind (sys_free h p) (fun h => set_field h v 0 (P 0))) = Ok h' /\
    gentle base h h' /\ vstate base h' v (upd f ASerial None) lk.
Proof.
  intros base h v f lk [fs [Hc Hv]]. assert (Ip : In 0%nat pf) by (left; reflexivity).
  pose proof Hc as (W & B & V & C & S & D & G & L). destruct (proj1 S 0%nat Ip) as [q Hq]. assert (Hp : ptr_at fs 0 = q) by (unfold ptr_at; rewrite Hq; reflexivity).
  assert (Vb : base <= v) by (apply G; left; reflexivity).
  exists q. destruct (q =? 0) eqn:E.
  - exists h. split; [exact (get_ptr_at _ _ _ _ _ V C Hq)|]. split; [reflexivity|]. split; [split; [intros x _; reflexivity|split; [reflexivity|lia]]|].
    exists fs. split; [exact Hc|]. apply N.eqb_eq in E. eapply vals_upd; [exact Hc|exact Hv|auto|auto|auto| |].
    + intros _. cbn. congruence.
    + intros i Hi. discriminate.
  - apply N.eqb_neq in E. rewrite <- Hp in E. destruct (drop_ptr _ _ _ _ _ _ Hc Ip E) as [D1 [D2 D3]]. rewrite Hp in D1, D2, D3. set (fs1 := set_nthv fs 0 (P 0)) in *.
    eexists. split; [exact (get_ptr_at _ _ _ _ _ V C Hq)|]. rewrite D1. cbn [obind]. split; [exact D2|].
    destruct (own_live _ _ _ _ _ 0%nat Hc Ip E) as [_ Hqv]. assert (Hqb : base <= q). { apply G. right. apply in_or_app. left. rewrite <- Hp. apply own_in; [exact Ip|exact E]. }
    assert (Hcell : forall y, y <> v -> y <> q -> hp_cell (wr (put h q Freed) v fs1) y = hp_cell h y).
    { intros y Y1 Y2. unfold wr. rewrite !put_other by assumption. reflexivity. }
    split; [split; [intros x Hx; apply Hcell; lia|split; [reflexivity|cbn; lia]]|].
    exists fs1. split; [exact D3|]. destruct Hv as [V1 V2]. split.
    + unfold upd. destruct (attr_dec ASerial ASerial) as [_|X]; [|congruence]. cbn. unfold fs1. eapply ptr_set_same. exact Hq.
    + intros b j Hj. destruct (arr_field_in _ _ Hj) as [Jp [_ [J0 Jb]]]. unfold upd. destruct (attr_dec ASerial b) as [X|_]; [congruence|]. specialize (V2 b j Hj). unfold arr_at in *.
      assert (E0 : ptr_at fs1 j = ptr_at fs j) by (unfold fs1; apply ptr_set_other; lia). rewrite E0.
      assert (E2 : nth_error fs1 (j + 1) = nth_error fs (j + 1)) by (unfold fs1; rewrite nth_set; replace (Nat.eqb 0 (j + 1)) with false by (symmetry; apply Nat.eqb_neq; lia); reflexivity).
      rewrite E2. destruct (f b) as [d|]; [|exact V2]. destruct V2 as [P1 [P2 P3]]. split; [exact P1|]. split; [|exact P3]. rewrite Hcell; [exact P2| |].
      * apply (own_live _ _ _ _ _ j Hc Jp P1).
      * rewrite <- Hp. eapply own_distinct; [exact Hc|exact Ip|exact Jp|exact J0|exact E|exact P1].
Qed.

Lemma gentle_refl : forall base h, gentle base h h.
Proof. intros base h. split; [intros x _; reflexivity|split; [reflexivity|lia]]. Qed.
Lemma gentle_trans : forall base h1 h2 h3, gentle base h1 h2 -> gentle base h2 h3 -> gentle base h1 h3.
Proof. intros base h1 h2 h3 [A1 [A2 A3]] [B1 [B2 B3]]. split; [intros x Hx; rewrite B1, A1 by exact Hx; reflexivity|]. split; [congruence|lia]. Qed.

Lemma vals_ext : forall h fs f g, (forall a, is_array a = true \/ a = ASerial -> f a = g a) -> vals h fs f -> vals h fs g.
Proof. intros h fs f g E [V1 V2]. split; [rewrite <- E by auto; exact V1|]. intros a i Hi. rewrite <- E; [apply V2; exact Hi|]. left. unfold is_array. rewrite Hi. reflexivity. Qed.
Lemma vstate_ext : forall base h v f g lk, (forall a, is_array a = true \/ a = ASerial -> f a = g a) -> vstate base h v f lk -> vstate base h v g lk.
Proof. intros base h v f g lk E [fs [C V]]. exists fs. split; [exact C|]. eapply vals_ext; eassumption. Qed.

Lemma clear_step : forall base h v f lk a, vstate base h v f lk ->
  exists h', h_clear_attr h v a = Ok (0%Z, h') /\ gentle base h h' /\ vstate base h' v (upd f a None) lk.
Proof.
  intros base h v f lk a Hs. pose proof Hs as [fs [(_ & _ & V & _) _]]. unfold h_clear_attr. rewrite (proj2 (N.eqb_neq _ _) V).
  destruct (arr_field a) as [i|] eqn:E.
  - destruct (free_content_step _ _ _ _ _ _ _ Hs E) as [h' [E1 [G' Hs']]].
    destruct a; try discriminate; rewrite E1; cbn [obind]; eauto.
  - destruct (attr_dec a ASerial) as [->|Ha].
    + destruct (drop_serial_step _ _ _ _ _ Hs) as [p [h' [E1 [E2 [G' Hs']]]]]. rewrite E1. cbn [obind].
      destruct (p =? 0); [injection E2 as <-; eauto|]. destruct (sys_free h p) as [h1|k]; cbn [obind] in *; [|discriminate]. rewrite E2. cbn [obind]. eauto.
    + assert (E2 : (match a with ASerial => obind (get_ptr h v 0) (fun p => if p =? 0 then Ok (0%Z, h) else obind (sys_free h p) (fun h => obind (set_field h v 0 (P 0)) (fun h => Ok (0%Z, h)))) | _ => Ok (0%Z, h) end) = Ok (0%Z, h)) by (destruct a; congruence).
      exists h. split; [destruct a; try discriminate; try congruence; reflexivity|]. split; [apply gentle_refl|]. eapply vstate_ext; [|exact Hs].
      intros b [Hb|Hb]; unfold upd; destruct (attr_dec a b) as [X|_]; try reflexivity; subst; [unfold is_array in Hb; rewrite E in Hb; discriminate|congruence].
Qed.

Lemma own_none : forall h fs, vals h fs unset -> own pf fs = [].
Proof.
  intros h fs [V1 V2]. rewrite own_nz. cbn in V1.
  assert (Q : forall a i, arr_field a = Some i -> ptr_at fs i = 0) by (intros a i Hi; apply (V2 a i Hi)).
  unfold pf. cbn [flat_map]. rewrite V1, (Q AIssuer 1%nat eq_refl), (Q APinned 3%nat eq_refl), (Q ANonce 5%nat eq_refl), (Q APrior 7%nat eq_refl), (Q AProximity 9%nat eq_refl). reflexivity.
Qed.

Lemma free_step : forall base h v f lk, vstate base h v f lk ->
  exists h', h_free_voucher h v = Ok h' /\ gentle base h h' /\ NoDup lk /\ (forall a, In a lk -> base <= a) /\ (forall a, base <= a -> (is_live h' a <-> In a lk)).
Proof.
  intros base h v f lk Hs. pose proof Hs as [fs0 [(_ & _ & V & _) _]]. unfold h_free_voucher. rewrite (proj2 (N.eqb_neq _ _) V).
  destruct (drop_serial_step _ _ _ _ _ Hs) as [p [h1 [E1 [E2 [G1 S1]]]]]. rewrite E1. cbn [obind]. rewrite E2. cbn [obind].
  destruct (free_content_step _ _ _ _ _ AIssuer 1%nat S1 eq_refl) as [h2 [F2 [G2 S2]]]. rewrite F2. cbn [obind].
  destruct (free_content_step _ _ _ _ _ APinned 3%nat S2 eq_refl) as [h3 [F3 [G3 S3]]]. rewrite F3. cbn [obind].
  destruct (free_content_step _ _ _ _ _ ANonce 5%nat S3 eq_refl) as [h4 [F4 [G4 S4]]]. rewrite F4. cbn [obind].
  destruct (free_content_step _ _ _ _ _ APrior 7%nat S4 eq_refl) as [h5 [F5 [G5 S5]]]. rewrite F5. cbn [obind].
  destruct (free_content_step _ _ _ _ _ AProximity 9%nat S5 eq_refl) as [h6 [F6 [G6 S6]]]. rewrite F6. cbn [obind].
  assert (S7 : vstate base h6 v unset lk).
  { eapply vstate_ext; [|exact S6]. intros a Ha. unfold upd, unset. destruct a; cbn in Ha; try reflexivity; destruct Ha; discriminate. }
  destruct S7 as [fs [(W & B & _ & C & S & D & G & L) Hv]]. pose proof (own_none _ _ Hv) as O. rewrite O in D, G, L. cbn [app] in D, G, L.
  exists (put h6 v Freed). split; [unfold sys_free; rewrite (proj2 (N.eqb_neq _ _) V), C; reflexivity|]. apply NoDup_cons_iff in D. destruct D as [D1 D2].
  split; [|split; [exact D2|split; [intros a Ha; apply G; right; exact Ha|]]].
  - assert (G16 : gentle base h h6) by (repeat (eapply gentle_trans; [eassumption|]); apply gentle_refl).
    eapply gentle_trans; [exact G16|]. split; [|split; [reflexivity|cbn; lia]]. intros x Hx. apply put_other. pose proof (G v (or_introl eq_refl)). lia.
  - intros a Ha. destruct (N.eq_dec a v) as [->|Hne].
    + split; [intros [b Hb]; rewrite put_same in Hb; discriminate|contradiction].
    + unfold is_live. rewrite put_other by exact Hne. fold (is_live h6 a). rewrite (L a Ha). split; [intros [X|X]; [congruence|exact X]|intros X; right; exact X].
Qed.

Definition set_outcome (base : N) (h : heap) (v : N) (f : attrs) (lk : list N) (a : attr) (d : bytes) (r : outcome (Z * heap)) : Prop :=
  exists rc h' old, r = Ok (rc, h') /\ gentle base h h' /\
    (forall y, y <> v -> is_live h y -> hp_cell h' y = hp_cell h y) /\ (hp_next h < hp_next h' /\ List.length old = held (f a)) /\
    ((rc = (-1)%Z /\ hp_oom h (hp_next h) = true /\ vstate base h' v (upd f a None) (old ++ lk)) \/
     (rc = 0%Z /\ hp_oom h (hp_next h) = false /\ vstate base h' v (upd f a (Some d)) (old ++ lk))).

Lemma core_base : forall base h v fs lk, core base h v fs lk -> base <= v /\ v <> 0 /\ base <= hp_next h /\ hp_cell h v = Live (Struct fs).
Proof. intros base h v fs lk (W & B & V & C & S & D & G & L). split; [apply G; left; reflexivity|auto]. Qed.

Lemma array_of_at : forall h s so fs p n, s <> 0 -> hp_cell h s = Live (Struct fs) -> nth_error fs so = Some (P p) -> nth_error fs (so + 1) = Some (I (Z.of_N n)) ->
  array_of h s so = if p =? 0 then None else Some (firstn (N.to_nat n) (content h p)).
Proof. intros h s so fs p n S0 C E1 E2. unfold array_of. rewrite (proj2 (N.eqb_neq _ _) S0), C, E1, E2. rewrite <- Z_N_nat, N2Z.id. reflexivity. Qed.

Lemma set_array_caller : forall base h v f lk a s so, vstate base h v f lk -> array_ok h s so -> s <> v ->
  match (if is_array a then array_of h s so else None) with
  | Some d => set_outcome base h v f lk a d (h_set_attr_array h v a (s, so))
  | None => h_set_attr_array h v a (s, so) = Ok ((-1)%Z, h)
  end.
Proof.
  intros base h v f lk a s so [fs [Hc Hv]] Ha Hs. destruct (core_base _ _ _ _ _ Hc) as [Vb [V0 [Nb Cv]]].
  unfold h_set_attr_array. rewrite (proj2 (N.eqb_neq _ _) V0). unfold h_is_attr_array_nonempty. cbn [fst snd].
  destruct Ha as [->|(sf & p & n & Cs & S0 & E1 & E2 & Hpn)].
  - cbn [N.eqb obind negb]. unfold array_of. cbn [N.eqb]. destruct (is_array a); reflexivity.
  - rewrite (proj2 (N.eqb_neq _ _) S0). rewrite (get_ptr_at _ _ _ _ _ S0 Cs E1). cbn [obind]. rewrite (get_int_at _ _ _ _ _ S0 Cs E2). cbn [obind].
    rewrite (array_of_at _ _ _ _ _ _ S0 Cs E1 E2). destruct Hpn as [[-> ->]|[P0 [d [Cp Hn]]]].
    + cbn. destruct (is_array a); reflexivity.
    + rewrite (proj2 (N.eqb_neq _ _) P0). cbn [andb negb]. unfold is_array. destruct (arr_field a) as [i|] eqn:Ei; [|reflexivity].
      unfold content. rewrite Cp. unfold set_outcome.
      eapply copy_step; [exact Hc|exact Hv|exact Ei|exact S0| | |exact P0|exact Cp|exact Hn|].
      * eapply get_ptr_at; [exact S0| |exact E1]. unfold wr. rewrite put_other by exact Hs. exact Cs.
      * eapply get_int_at; [exact S0| |exact E2]. unfold wr. rewrite put_other by exact Hs. exact Cs.
      * intros c h2 Ea C0. eapply get_int_at; [exact S0| |exact E2]. unfold wr. rewrite put_other by exact Hs.
        unfold alloc in Ea. cbn [wr put hp_oom hp_next] in Ea. destruct (hp_oom h (hp_next h)); injection Ea as <- <-; [congruence|].
        assert (Hsn : s <> hp_next h). { intros X. pose proof Hc as ((_ & _ & W3) & _). rewrite X, W3 in Cs by lia. discriminate. }
        rewrite put_other by exact Hsn. cbn [hp_cell]. rewrite (proj2 (N.eqb_neq s v) Hs). exact Cs.
Qed.

Lemma set_array_own : forall base h v f lk a b, vstate base h v f lk ->
  match (if is_array a && is_array b then f b else None) with
  | Some d => set_outcome base h v f lk a (if attr_dec a b then [] else d) (do_op v h (CopyOwn a b))
  | None => do_op v h (CopyOwn a b) = Ok ((-1)%Z, h)
  end.
Proof.
  intros base h v f lk a b [fs [Hc Hv]]. destruct (core_base _ _ _ _ _ Hc) as [Vb [V0 [Nb Cv]]].
  unfold do_op, h_set_attr_array. rewrite (proj2 (N.eqb_neq _ _) V0). unfold h_is_attr_array_nonempty. unfold is_array.
  destruct (arr_field b) as [j|] eqn:Ej; [|cbn [fst N.eqb obind negb]; destruct (arr_field a); reflexivity].
  cbn [fst snd]. rewrite (proj2 (N.eqb_neq _ _) V0). destruct (arr_field_in _ _ Ej) as [Jp [Jl [J0 Jb]]].
  pose proof Hc as (_ & _ & _ & _ & Sh & _). destruct (proj1 Sh j Jp) as [q Hq]. assert (Hp : ptr_at fs j = q) by (unfold ptr_at; rewrite Hq; reflexivity).
  pose proof (proj2 Hv b j Ej) as Vj. rewrite (get_ptr_at _ _ _ _ _ V0 Cv Hq). cbn [obind]. unfold arr_at in Vj.
  destruct (f b) as [d|].
  - destruct Vj as [P0 [Pc Pl]]. rewrite Hp in P0, Pc. rewrite (get_int_at _ _ _ _ _ V0 Cv Pl). cbn [obind]. rewrite (proj2 (N.eqb_neq _ _) P0). cbn [andb negb].
    destruct (arr_field a) as [i|] eqn:Ei; [|reflexivity]. cbn [andb]. destruct (arr_field_in _ _ Ei) as [Ip [Il [I0 Ia]]].
    destruct (attr_dec a b) as [<-|Hab].
    + rewrite Ei in Ej. injection Ej as <-. replace (@nil N) with (firstn (N.to_nat 0) d) by reflexivity. unfold set_outcome.
      assert (N1 : nth_error (set_nthv fs (i + 1) (I 0)) i = Some (P q)) by (rewrite nth_set; replace (Nat.eqb (i + 1) i) with false by (symmetry; apply Nat.eqb_neq; lia); exact Hq).
      assert (N2 : nth_error (set_nthv fs (i + 1) (I 0)) (i + 1) = Some (I (Z.of_N 0))) by (rewrite nth_set, Nat.eqb_refl, Pl; reflexivity).
      eapply copy_step; [exact Hc|exact Hv|exact Ei|exact V0| | |exact P0|exact Pc|lia|].
      * eapply get_ptr_at; [exact V0|unfold wr; apply put_same|exact N1].
      * eapply get_int_at; [exact V0|unfold wr; apply put_same|exact N2].
      * intros c h2 Ea C0. eapply get_int_at; [exact V0|unfold wr; apply put_same|]. rewrite nth_set. replace (Nat.eqb i (i + 1)) with false by (symmetry; apply Nat.eqb_neq; lia). exact N2.
    + destruct (arr_field_inj _ _ _ _ Ei Ej Hab) as [J1 [J2 J3]]. unfold set_outcome.
      assert (Fd : firstn (N.to_nat (blen d)) d = d) by (apply firstn_all2; unfold blen; lia). rewrite <- Fd.
      assert (N1 : nth_error (set_nthv fs (i + 1) (I 0)) j = Some (P q)) by (rewrite nth_set; replace (Nat.eqb (i + 1) j) with false by (symmetry; apply Nat.eqb_neq; lia); exact Hq).
      assert (N2 : nth_error (set_nthv fs (i + 1) (I 0)) (j + 1) = Some (I (Z.of_N (blen d)))) by (rewrite nth_set; replace (Nat.eqb (i + 1) (j + 1)) with false by (symmetry; apply Nat.eqb_neq; lia); exact Pl).
      eapply copy_step; [exact Hc|exact Hv|exact Ei|exact V0| | |exact P0|exact Pc|lia|].
      * eapply get_ptr_at; [exact V0|unfold wr; apply put_same|exact N1].
      * eapply get_int_at; [exact V0|unfold wr; apply put_same|exact N2].
      * intros c h2 Ea C0. eapply get_int_at; [exact V0|unfold wr; apply put_same|]. rewrite nth_set. replace (Nat.eqb i (j + 1)) with false by (symmetry; apply Nat.eqb_neq; lia). exact N2.
  - destruct Vj as [P0 Pl]. rewrite Hp in P0. subst q. rewrite P0. rewrite (get_int_at _ _ _ _ _ V0 Cv Pl). cbn. destruct (arr_field a); reflexivity.
Qed.

(** *** The serial number *)
Lemma c_string_upto : forall d, c_string d = upto_nul d.
Proof. induction d as [|c r IH]; [reflexivity|]. cbn [c_string upto_nul]. destruct (c =? 0); [reflexivity|]. rewrite IH. reflexivity. Qed.

Lemma strncpy_readable : forall n mem dest, (n <= List.length mem)%nat -> (n <= List.length dest)%nat -> exists y, strncpy n dest mem = Ok (firstn n (c_string (firstn n mem)) ++ repeat 0 (n - List.length (c_string (firstn n mem))) ++ skipn n dest) /\ y = 0.
Proof.
  induction n as [|n IH]; intros mem dest Hm Hd; [exists 0; auto|].
  destruct mem as [|c r]; [cbn in Hm; lia|]. destruct dest as [|x d]; [cbn in Hd; lia|]. cbn [List.length] in *.
  cbn [strncpy firstn c_string]. destruct (c =? 0) eqn:E.
  - exists 0. split; [|reflexivity]. replace (N.of_nat n <=? blen d) with true by (symmetry; apply N.leb_le; unfold blen; lia).
    cbn [firstn List.length Nat.sub app repeat skipn]. reflexivity.
  - destruct (IH r d ltac:(lia) ltac:(lia)) as [_ [E1 _]]. rewrite E1. cbn [obind]. exists 0. split; [|reflexivity]. cbn [firstn List.length Nat.sub app skipn]. reflexivity.
Qed.

Lemma strndup_readable : forall mem n, n <= blen mem -> n < SIZE_MAX -> exists b, sys_strndup true (Some mem) n = Ok (Some b) /\ In 0 b /\ c_string b = c_string (firstn (N.to_nat n) mem).
Proof.
  intros mem n Hn Hs. destruct (sys_strndup true (Some mem) n) as [r|k] eqn:E.
  2:{ exfalso. unfold sys_strndup in E. cbn [negb] in E. destruct (strncpy_readable (N.to_nat n) mem (repeat 0 (N.to_nat (szadd n 1)))) as [_ [E1 _]].
      - unfold blen in Hn. lia.
      - rewrite repeat_length. unfold szadd, size_mod. unfold SIZE_MAX in Hs. rewrite N.mod_small by lia. lia.
      - rewrite E1 in E. discriminate. }
  unfold sys_strndup in E. cbn [negb] in E. destruct (strncpy_readable (N.to_nat n) mem (repeat 0 (N.to_nat (szadd n 1)))) as [_ [E1 _]].
  - unfold blen in Hn. lia.
  - rewrite repeat_length. unfold szadd, size_mod. unfold SIZE_MAX in Hs. rewrite N.mod_small by lia. lia.
  - rewrite E1 in E. cbn [obind] in E. injection E as <-. eexists. split; [reflexivity|]. set (t := c_string (firstn (N.to_nat n) mem)).
    assert (Ht : (List.length t <= N.to_nat n)%nat). { unfold t. pose proof (c_string_len (firstn (N.to_nat n) mem)) as Q. unfold blen in Q. rewrite firstn_length in Q. lia. }
    rewrite firstn_all2 by exact Ht.
    assert (Hz : exists m, repeat 0 (N.to_nat n - List.length t) ++ skipn (N.to_nat n) (repeat 0 (N.to_nat (szadd n 1))) = 0 :: m).
    { assert (X : szadd n 1 = n + 1) by (unfold szadd, size_mod; unfold SIZE_MAX in Hs; apply N.mod_small; lia). rewrite X. replace (N.to_nat (n + 1)) with (N.to_nat n + 1)%nat by lia.
      rewrite repeat_app, skipn_app, skipn_all2 by (rewrite repeat_length; lia). rewrite repeat_length, Nat.sub_diag. cbn [skipn repeat app]. destruct (N.to_nat n - List.length t)%nat; [exists []; reflexivity|eexists; reflexivity]. }
    destruct Hz as [m Hz]. rewrite Hz. split; [apply in_or_app; right; left; reflexivity|].
    assert (Hnz : forall l, c_string (c_string l ++ 0 :: m) = c_string l).
    { clear. induction l as [|c r IH]; [reflexivity|]. cbn [c_string app]. destruct (c =? 0) eqn:E; [reflexivity|]. cbn [app c_string]. rewrite E, IH. reflexivity. }
    apply Hnz.
Qed.

Lemma set_nstr_step : forall base h v f lk mem len, vstate base h v f lk -> len <= blen mem ->
  if len <? 128 then set_outcome base h v f lk ASerial (c_string (firstn (N.to_nat len) mem)) (h_set_attr_nstr h v (Some mem) len)
  else h_set_attr_nstr h v (Some mem) len = Ok ((-1)%Z, h).
Proof.
  intros base h v f lk mem len [fs [Hc Hv]] Hl. destruct (core_base _ _ _ _ _ Hc) as [Vb [V0 [Nb Cv]]].
  unfold h_set_attr_nstr. destruct (len <? 128) eqn:E128; [|reflexivity]. unfold heap_strndup, set_outcome.
  assert (Ip : In 0%nat pf) by (left; reflexivity). pose proof Hc as (W & _ & _ & _ & Sh & _). destruct (proj1 Sh 0%nat Ip) as [q Hq].
  assert (Hold : List.length (nz (ptr_at fs 0)) = held (f ASerial)) by (exact (nz_len_ser h fs _ (proj1 Hv))).
  destruct (hp_oom h (hp_next h)) eqn:Oom; cbn [negb].
  - cbn [sys_strndup negb obind]. destruct (alloc h (Buf [])) as [c h2] eqn:Ea. cbn [snd]. pose proof (core_alloc _ _ _ _ _ _ _ _ Hc Ea) as C2.
    unfold alloc in Ea. rewrite Oom in Ea. injection Ea as <- <-.
    destruct (core_set_ptr _ _ _ _ _ 0%nat 0 C2 Ip) as [E3 C3]. rewrite E3. cbn [obind N.eqb].
    eexists _, _, _. split; [reflexivity|]. split; [|split; [|split; [split; [cbn; lia|exact Hold]|left]]].
    + split; [|split; [reflexivity|cbn; lia]]. intros x Hx. unfold wr, put. cbn [hp_cell]. rewrite (proj2 (N.eqb_neq x v)) by lia. reflexivity.
    + intros y Hy _. unfold wr, put. cbn [hp_cell]. rewrite (proj2 (N.eqb_neq y v) Hy). reflexivity.
    + split; [reflexivity|]. split; [reflexivity|]. eexists. split; [exact C3|]. eapply vals_upd; [exact Hc|exact Hv| | | | |].
      * intros y Hy _. unfold wr, put. cbn [hp_cell]. rewrite (proj2 (N.eqb_neq y v) Hy). reflexivity.
      * intros X. congruence.
      * intros b j Hj Hb. destruct (arr_field_in _ _ Hj) as [_ [_ [J0 _]]]. rewrite ptr_set_other by lia. split; [reflexivity|]. rewrite nth_set.
        replace (Nat.eqb 0 (j + 1)) with false by (symmetry; apply Nat.eqb_neq; lia). reflexivity.
      * intros _. cbn [ser_at]. eapply ptr_set_same. exact Hq.
      * intros j Hj. discriminate.
  - destruct (strndup_readable mem len Hl) as [b [Eb [B0 Bs]]]; [unfold SIZE_MAX; lia|]. rewrite Eb. cbn [obind].
    destruct (alloc h (Buf b)) as [c h2] eqn:Ea. pose proof (core_alloc _ _ _ _ _ _ _ _ Hc Ea) as C2.
    destruct (alloc_cases h (Buf b) W) as [c' [h2' [Ea' [W2 [Hn2 [Ho2 Cs]]]]]]. rewrite Ea in Ea'. injection Ea' as <- <-.
    destruct Cs as [[_ [X _]]|[Hcn [C0 [_ [Cc [Cf Cx]]]]]]; [congruence|].
    destruct (core_set_ptr _ _ _ _ _ 0%nat c C2 Ip) as [E3 C3]. rewrite E3. cbn [obind]. rewrite (proj2 (N.eqb_neq _ _) C0).
    assert (Hcv : c <> v) by congruence.
    eexists _, _, _. split; [reflexivity|]. split; [|split; [|split; [split; [try subst h2; cbn; lia|exact Hold]|right]]].
    + split; [|split; [exact Ho2|cbn; lia]]. intros x Hx. unfold wr. rewrite put_other by lia. apply Cx. lia.
    + intros y Hy [z Hz]. unfold wr. rewrite put_other by exact Hy. apply Cx. congruence.
    + split; [reflexivity|]. split; [reflexivity|]. eexists. split; [exact C3|]. eapply vals_upd; [exact Hc|exact Hv| | | | |].
      * intros y Hy [z Hz]. unfold wr. rewrite put_other by exact Hy. apply Cx. congruence.
      * intros X. congruence.
      * intros b' j Hj Hb. destruct (arr_field_in _ _ Hj) as [_ [_ [J0 _]]]. rewrite ptr_set_other by lia. split; [reflexivity|]. rewrite nth_set.
        replace (Nat.eqb 0 (j + 1)) with false by (symmetry; apply Nat.eqb_neq; lia). reflexivity.
      * intros _. cbn [ser_at]. rewrite (ptr_set_same _ _ _ _ Hq). split; [exact C0|]. exists b. unfold wr. rewrite put_other by exact Hcv. auto.
      * intros j Hj. discriminate.
Qed.

Lemma strnlen_exact : forall d m, In 0 d -> sys_strnlen_s d m = Ok (N.min (blen (c_string d)) m).
Proof.
  intros d m Hin. unfold sys_strnlen_s.
  assert (Q : forall d n i, In 0 d -> memchr0 d n i = Ok (if N.of_nat n <=? blen (c_string d) then None else Some (i + blen (c_string d)))).
  { clear. induction d as [|c r IH]; intros n i H; [contradiction|]. destruct n as [|n]; cbn [memchr0 c_string]; [replace (N.of_nat 0 <=? _) with true by (symmetry; apply N.leb_le; lia); reflexivity|]. destruct (c =? 0) eqn:E.
    - unfold blen. cbn [List.length N.of_nat]. replace (N.of_nat (S n) <=? 0) with false by (symmetry; apply N.leb_gt; lia). rewrite N.add_0_r. reflexivity.
    - destruct H as [H|H]; [apply N.eqb_neq in E; congruence|]. rewrite IH by exact H. rewrite blen_cons. destruct (N.of_nat n <=? blen (c_string r)) eqn:E1; destruct (N.of_nat (S n) <=? 1 + blen (c_string r)) eqn:E2; try lia; [reflexivity|]. do 2 f_equal. lia. }
  rewrite Q by exact Hin. cbn [obind]. rewrite N2Nat.id. destruct (m <=? blen (c_string d)) eqn:E; f_equal; lia.
Qed.

Lemma firstn_c_string : forall d n, (List.length (c_string d) <= n)%nat -> In 0 d -> c_string (firstn n d) = c_string d.
Proof.
  induction d as [|c r IH]; intros n Hn Hin; [destruct n; reflexivity|]. cbn [c_string] in *. destruct (c =? 0) eqn:E.
  - destruct n; [reflexivity|]. cbn [firstn c_string]. rewrite E. reflexivity.
  - cbn [List.length] in Hn. destruct n as [|n]; [lia|]. cbn [firstn c_string]. rewrite E. f_equal. apply IH; [lia|]. destruct Hin as [X|X]; [apply N.eqb_neq in E; congruence|exact X].
Qed.

Lemma set_str_step : forall base h v f lk value d, vstate base h v f lk -> value <> 0 -> hp_cell h value = Live (Buf d) -> In 0 d ->
  if blen (c_string d) <? 128 then set_outcome base h v f lk ASerial (c_string d) (h_set_attr_str h v ASerial value)
  else h_set_attr_str h v ASerial value = Ok ((-1)%Z, h).
Proof.
  intros base h v f lk value d Hs Hv Hd Hin. pose proof Hs as [fs [Hc _]]. destruct (core_base _ _ _ _ _ Hc) as [_ [V0 _]].
  unfold h_set_attr_str. rewrite (proj2 (N.eqb_neq _ _) V0), (proj2 (N.eqb_neq _ _) Hv). unfold load_buf. rewrite (proj2 (N.eqb_neq _ _) Hv), Hd. cbn [obind]. rewrite strnlen_exact by exact Hin. cbn [obind].
  pose proof (c_string_len d) as Q. pose proof (set_nstr_step base h v f lk d (N.min (blen (c_string d)) 128) Hs ltac:(lia)) as X.
  destruct (blen (c_string d) <? 128) eqn:E.
  - replace (N.min (blen (c_string d)) 128 <? 128) with true in X by lia. replace (N.min (blen (c_string d)) 128) with (blen (c_string d)) in * by lia.
    rewrite firstn_c_string in X by (unfold blen; lia || exact Hin). exact X.
  - replace (N.min (blen (c_string d)) 128 <? 128) with false in X by lia. exact X.
Qed.

(** *** Histories *)
Definition short (f : attrs) : Prop := match f ASerial with Some s => blen s < 128 | None => True end.

Lemma wf_live : forall h a b, heap_wf h -> hp_cell h a = Live b -> a < hp_next h /\ a <> 0.
Proof. intros h a b [W1 [W2 W3]] H. split; [|intros ->; congruence]. destruct (N.lt_ge_cases a (hp_next h)) as [X|X]; [exact X|]. rewrite W3 in H by exact X. discriminate. Qed.

Lemma array_ok_kept : forall h0 h s so, heap_wf h0 -> kept (hp_next h0) h0 h -> array_ok h0 s so -> s < hp_next h0 /\ array_ok h s so /\ array_of h s so = array_of h0 s so.
Proof.
  intros h0 h s so W K [->|(fs & p & n & Cs & S0 & E1 & E2 & Hp)]; [split; [apply W|split; [left; reflexivity|reflexivity]]|].
  destruct (wf_live _ _ _ W Cs) as [Hs _]. pose proof Cs as Cs'. rewrite <- (K s Hs) in Cs'. split; [exact Hs|].
  assert (Hc : p <> 0 -> readable h0 p n -> hp_cell h p = hp_cell h0 p). { intros P0 [d [Hd _]]. apply K. apply (wf_live _ _ _ W Hd). }
  split.
  - right. exists fs, p, n. repeat (split; [assumption|]). destruct Hp as [Hp|[P0 Hp]]; [left; exact Hp|right; split; [exact P0|]]. pose proof (Hc P0 Hp) as X. destruct Hp as [d [Hd Hl]]. exists d. split; [congruence|exact Hl].
  - rewrite (array_of_at _ _ _ _ _ _ S0 Cs' E1 E2), (array_of_at _ _ _ _ _ _ S0 Cs E1 E2). destruct Hp as [[-> ->]|[P0 Hp]]; [reflexivity|]. unfold content. rewrite (Hc P0 Hp). reflexivity.
Qed.

Lemma short_upd : forall f a x, short f -> (a = ASerial -> match x with Some s => blen s < 128 | None => True end) -> short (upd f a x).
Proof. intros f a x H Hx. unfold short, upd. destruct (attr_dec a ASerial) as [E|E]; [apply Hx; exact E|exact H]. Qed.

Definition moved (f f' : attrs) (a : attr) (rc : Z) : Prop := (rc = 0%Z \/ rc = (-1)%Z) /\ forall b, b <> a -> f' b = f b.
Lemma moved_upd : forall f a x rc, rc = 0%Z \/ rc = (-1)%Z -> moved f (upd f a x) a rc.
Proof. intros f a x rc H. split; [exact H|]. intros b Hb. unfold upd. destruct (attr_dec a b); [congruence|reflexivity]. Qed.

Lemma set_outcome_step : forall base h v f lk a d r, set_outcome base h v f lk a d r -> short f -> (a = ASerial -> blen d < 128) ->
  exists rc h' f' lk', r = Ok (rc, h') /\ gentle base h h' /\ vstate base h' v f' lk' /\ short f' /\ moved f f' a rc /\
    (plenty h -> rc = 0%Z /\ f' = upd f a (Some d) /\ List.length lk' = (held (f a) + List.length lk)%nat).
Proof.
  intros base h v f lk a d r (rc & h' & old & E & G & _ & [_ L] & [(Hr & Oom & Hs)|(Hr & Oom & Hs)]) Hsh Hd.
  - exists rc, h', (upd f a None), (old ++ lk). repeat (split; [assumption|]). split; [apply short_upd; [exact Hsh|intros _; exact Logic.I]|]. split; [apply moved_upd; auto|]. intros Pl. rewrite Pl in Oom. discriminate.
  - exists rc, h', (upd f a (Some d)), (old ++ lk). repeat (split; [assumption|]). split; [apply short_upd; [exact Hsh|exact Hd]|]. split; [apply moved_upd; auto|]. intros _. rewrite app_length, L. auto.
Qed.

Lemma op_step : forall h0 h v f lk op, heap_wf h0 -> vstate (hp_next h0) h v f lk -> short f -> kept (hp_next h0) h0 h -> op_ok h0 op ->
  exists rc h' f' lk', do_op v h op = Ok (rc, h') /\ gentle (hp_next h0) h h' /\ vstate (hp_next h0) h' v f' lk' /\ short f' /\ moved f f' (target op) rc /\
    (plenty h -> rc = result h0 f op /\ f' = after h0 f op /\ List.length lk' = (overwrites h0 f op + List.length lk)%nat).
Proof.
  intros h0 h v f lk op W Hs Hsh K Hop. set (base := hp_next h0) in *.
  assert (Hno : forall r, r = Ok ((-1)%Z, h) -> exists rc h' f' lk', r = Ok (rc, h') /\ gentle base h h' /\ vstate base h' v f' lk' /\ short f' /\ moved f f' (target op) rc /\
    (plenty h -> rc = (-1)%Z /\ f' = f /\ List.length lk' = List.length lk)).
  { intros r ->. exists (-1)%Z, h, f, lk. split; [reflexivity|]. split; [apply gentle_refl|]. repeat (split; [assumption|]). split; [split; auto|]. auto. }
  destruct op as [a s so|a value|a|a b|]; cbn [op_ok] in Hop.
  - destruct (array_ok_kept _ _ _ _ W K Hop) as [Sb [Hok Hof]]. assert (Sv : s <> v) by (destruct Hs as [fs [Hc _]]; destruct (core_base _ _ _ _ _ Hc) as [Vb _]; unfold base in *; lia).
    pose proof (set_array_caller _ _ _ _ _ a _ _ Hs Hok Sv) as X. rewrite Hof in X.
    unfold result, after, overwrites, setting. destruct (is_array a) eqn:Ea; [|apply Hno; exact X].
    destruct (array_of h0 s so) as [d|]; [|apply Hno; exact X]. cbn [option_map]. cbn [do_op]. eapply set_outcome_step; [exact X|exact Hsh|]. intros ->. discriminate.
  - destruct (attr_dec a ASerial) as [->|Ha].
    + unfold result, after, overwrites, setting, string_of. cbn [do_op]. destruct (value =? 0) eqn:Ev.
      * apply Hno. unfold h_set_attr_str. rewrite Ev. destruct (v =? 0); reflexivity.
      * apply N.eqb_neq in Ev. destruct Hop as [X|[d [Hd Hin]]]; [congruence|]. destruct (wf_live _ _ _ W Hd) as [Hlt _].
        pose proof Hd as Hd'. rewrite <- (K value Hlt) in Hd'. pose proof (set_str_step _ _ _ _ _ _ _ Hs Ev Hd' Hin) as X.
        unfold content. rewrite Hd. destruct (blen (c_string d) <? 128) eqn:El; [|apply Hno; exact X]. eapply set_outcome_step; [exact X|exact Hsh|]. intros _. lia.
    + assert (E : do_op v h (SetString a value) = Ok ((-1)%Z, h)) by (cbn [do_op]; unfold h_set_attr_str; destruct (v =? 0); [reflexivity|]; destruct a; reflexivity || congruence).
      assert (En : setting h0 f (SetString a value) = None) by (destruct a; reflexivity || congruence).
      unfold result, after, overwrites. rewrite En. apply Hno. exact E.
  - destruct (clear_step _ _ _ _ _ a Hs) as [h' [E [G Hs']]]. exists 0%Z, h', (upd f a None), lk. cbn [do_op]. repeat (split; [assumption|]). split; [apply short_upd; [exact Hsh|intros _; exact Logic.I]|]. split; [apply moved_upd; auto|]. intros _. auto.
  - pose proof (set_array_own _ _ _ _ _ a b Hs) as X. unfold result, after, overwrites, setting. destruct (is_array a && is_array b) eqn:Ea; [|apply Hno; exact X].
    destruct (f b) as [d|]; [|apply Hno; exact X]. eapply set_outcome_step; [exact X|exact Hsh|]. intros ->. discriminate.
  - unfold result, after, overwrites, setting. cbn [do_op]. pose proof Hs as [fs [Hc [V1 _]]]. destruct (core_base _ _ _ _ _ Hc) as [Vb [V0 [Nb Cv]]].
    pose proof Hc as (_ & _ & _ & _ & Sh & _). destruct (proj1 Sh 0%nat (or_introl eq_refl)) as [q Hq]. assert (Hp : ptr_at fs 0 = q) by (unfold ptr_at; rewrite Hq; reflexivity).
    rewrite (get_ptr_at _ _ _ _ _ V0 Cv Hq). cbn [obind]. unfold ser_at in V1. rewrite Hp in V1. pose proof Hsh as Hsh'. unfold short in Hsh'. destruct (f ASerial) as [t|].
    + destruct V1 as [Q0 [d [Hd [Hin Hc2]]]]. pose proof (set_str_step _ _ _ _ _ _ _ Hs Q0 Hd Hin) as X. rewrite Hc2 in X. rewrite (proj2 (N.ltb_lt _ _) Hsh') in X. cbn [option_map].
      eapply set_outcome_step; [exact X|exact Hsh|]. intros _. exact Hsh'.
    + rewrite V1. cbn [option_map]. apply Hno. unfold h_set_attr_str. cbn [N.eqb]. destruct (v =? 0); reflexivity.
Qed.

Lemma history : forall h0 ops h v f lk, heap_wf h0 -> vstate (hp_next h0) h v f lk -> short f -> kept (hp_next h0) h0 h -> Forall (op_ok h0) ops ->
  exists rcs h' f' lk', calls (do_op v) h ops = Ok (rcs, h') /\ gentle (hp_next h0) h h' /\ vstate (hp_next h0) h' v f' lk' /\ short f' /\
    (plenty h -> rcs = results h0 f ops /\ f' = fold_left (after h0) ops f /\ List.length lk' = (overwritten h0 f ops + List.length lk)%nat).
Proof.
  intros h0 ops. induction ops as [|op ops IH]; intros h v f lk W Hs Hsh K Hop.
  - exists [], h, f, lk. split; [reflexivity|]. split; [apply gentle_refl|]. split; [exact Hs|]. split; [exact Hsh|]. auto.
  - inversion Hop as [|? ? Ho1 Ho2]; subst. destruct (op_step _ _ _ _ _ _ W Hs Hsh K Ho1) as (rc & h1 & f1 & lk1 & E & G & Hs1 & Hsh1 & _ & P1).
    destruct (IH h1 v f1 lk1 W Hs1 Hsh1) as (rcs & h2 & f2 & lk2 & E2 & G2 & Hs2 & Hsh2 & P2); [intros x Hx; rewrite (proj1 G x Hx); apply K; exact Hx|exact Ho2|].
    exists (rc :: rcs), h2, f2, lk2. cbn [calls]. rewrite E. cbn [obind snd fst]. rewrite E2. cbn [obind fst snd]. split; [reflexivity|]. split; [eapply gentle_trans; eassumption|]. split; [exact Hs2|]. split; [exact Hsh2|].
    intros Pl. destruct (P1 Pl) as [-> [-> L1]]. assert (Pl1 : plenty h1) by (intros x; rewrite (proj1 (proj2 G)); apply Pl). destruct (P2 Pl1) as [-> [-> L2]].
    cbn [results fold_left overwritten]. split; [reflexivity|]. split; [reflexivity|]. lia.
Qed.

Lemma init_state : forall h0 v h1, heap_wf h0 -> h_init_voucher h0 = (v, h1) -> v <> 0 -> vstate (hp_next h0) h1 v unset [] /\ gentle (hp_next h0) h0 h1.
Proof.
  intros h0 v h1 W E V0. unfold h_init_voucher in E. destruct (alloc_cases h0 v_node W) as [a [h' [Ea [W' [Hn [Ho Cs]]]]]]. rewrite E in Ea. injection Ea as <- <-.
  destruct Cs as [[X _]|[Hv [_ [_ [Cc [Cf Cx]]]]]]; [congruence|]. split.
  - eexists. split.
    + split; [exact W'|]. split; [lia|]. split; [exact V0|]. split; [exact Cc|]. split.
      * split; intros i Hi; cbn in Hi; repeat (destruct Hi as [<-|Hi]; [eexists; reflexivity|]); contradiction.
      * split; [cbn; repeat constructor; intros []|]. split; [cbn; intros a [<-|[]]; lia|]. intros a Ha. cbn. split.
        -- intros [b Hb]. left. destruct (N.eq_dec a v) as [->|Hne]; [reflexivity|]. rewrite Cx in Hb by exact Hne. destruct (wf_live _ _ _ W Hb). lia.
        -- intros [<-|[]]. eexists. exact Cc.
    + split; [reflexivity|]. intros a i Hi. destruct a; try discriminate; injection Hi as <-; split; reflexivity.
  - split; [intros x Hx; apply Cx; lia|]. split; [exact Ho|lia].
Qed.

(** What the getters give. *)
Lemma getters : forall base h v f lk h', vstate base h v f lk -> same_above base h h' ->
  h_get_serial h' v = Ok (f ASerial) /\ forall a i, arr_field a = Some i -> h_get_array h' v i = Ok (f a).
Proof.
  intros base h v f lk h' [fs [Hc [V1 V2]]] [_ Sa]. destruct (core_base _ _ _ _ _ Hc) as [Vb [V0 [Nb Cv]]]. pose proof Hc as (_ & _ & _ & _ & Sh & _ & G & _).
  assert (Cv' : hp_cell h' v = Live (Struct fs)) by (rewrite Sa by exact Vb; exact Cv).
  assert (Q : forall i, In i pf -> ptr_at fs i <> 0 -> hp_cell h' (ptr_at fs i) = hp_cell h (ptr_at fs i)).
  { intros i Hi Hp. apply Sa. apply G. right. apply in_or_app. left. apply own_in; assumption. }
  split.
  - unfold h_get_serial. destruct (proj1 Sh 0%nat (or_introl eq_refl)) as [q Hq]. assert (Hp : ptr_at fs 0 = q) by (unfold ptr_at; rewrite Hq; reflexivity).
    rewrite (get_ptr_at _ _ _ _ _ V0 Cv' Hq). cbn [obind]. unfold ser_at in V1. destruct (f ASerial) as [s|].
    + destruct V1 as [Q0 [d [Hd [Hin Hs]]]]. pose proof (Q 0%nat (or_introl eq_refl) Q0) as X. rewrite Hp in *. rewrite (proj2 (N.eqb_neq _ _) Q0). rewrite (heap_string_exact h' q d Q0) by (congruence || exact Hin). cbn [obind]. rewrite Hs. reflexivity.
    + rewrite Hp in V1. rewrite V1. reflexivity.
  - intros a i Hi. destruct (arr_field_in _ _ Hi) as [Ip [Il [I0 Ia]]]. specialize (V2 a i Hi). unfold h_get_array. destruct (proj1 Sh i Ip) as [q Hq]. assert (Hp : ptr_at fs i = q) by (unfold ptr_at; rewrite Hq; reflexivity).
    rewrite (get_ptr_at _ _ _ _ _ V0 Cv' Hq). cbn [obind]. unfold arr_at in V2. destruct (f a) as [d|].
    + destruct V2 as [Q0 [Hd Hl]]. pose proof (Q i Ip Q0) as X. rewrite Hp in *. rewrite (get_int_at _ _ _ _ _ V0 Cv' Hl). cbn [obind]. unfold load_buf. rewrite (proj2 (N.eqb_neq _ _) Q0), X, Hd. cbn [obind].
      rewrite N2Z.id. unfold take_mem. rewrite N.leb_refl. cbn [obind]. rewrite firstn_all2 by (unfold blen; lia). reflexivity.
    + destruct V2 as [Q0 Hl]. rewrite (get_int_at _ _ _ _ _ V0 Cv' Hl). cbn [obind]. rewrite Hp in Q0. rewrite Q0. reflexivity.
Qed.

Lemma life_state : forall h0 ops rcs v h, heap_wf h0 -> Forall (op_ok h0) ops -> voucher_life h0 ops rcs v h ->
  exists f lk, gentle (hp_next h0) h0 h /\ vstate (hp_next h0) h v f lk /\ short f /\
    (plenty h0 -> rcs = results h0 unset ops /\ f = final h0 ops /\ List.length lk = overwritten h0 unset ops).
Proof.
  intros h0 ops rcs v h W Hop [h1 [Ei [V0 Ec]]]. destruct (init_state _ _ _ W Ei V0) as [Hs G].
  destruct (history h0 ops h1 v unset [] W Hs Logic.I (proj1 G) Hop) as (rcs' & h' & f & lk & E & G' & Hs' & Hsh & Pl).
  rewrite Ec in E. injection E as <- <-. exists f, lk. split; [eapply gentle_trans; eassumption|]. split; [exact Hs'|]. split; [exact Hsh|].
  intros P0. assert (P1 : plenty h1) by (intros x; rewrite (proj1 (proj2 G)); apply P0). destruct (Pl P1) as [-> [-> L]]. cbn [List.length] in L. rewrite Nat.add_0_r in L. auto.
Qed.

Lemma life_exists : forall h0 ops, heap_wf h0 -> Forall (op_ok h0) ops ->
  let (v, h1) := h_init_voucher h0 in v = 0 \/ exists rcs h, voucher_life h0 ops rcs v h.
Proof.
  intros h0 ops W Hop. destruct (h_init_voucher h0) as [v h1] eqn:Ei. destruct (N.eq_dec v 0) as [X|V0]; [left; exact X|right]. destruct (init_state _ _ _ W Ei V0) as [Hs G].
  destruct (history h0 ops h1 v unset [] W Hs Logic.I (proj1 G) Hop) as (rcs & h & f & lk & E & _). exists rcs, h, h1. auto.
Qed.

Lemma voucher_safe : forall h0 ops v h1, heap_wf h0 -> Forall (op_ok h0) ops -> h_init_voucher h0 = (v, h1) -> v <> 0 ->
  exists rcs h2 h3, voucher_life h0 ops rcs v h2 /\ h_free_voucher h2 v = Ok h3 /\ kept (hp_next h0) h0 h3.
Proof.
  intros h0 ops v h1 W Hop Ei V0. pose proof (life_exists h0 ops W Hop) as X. rewrite Ei in X. destruct X as [X|[rcs [h2 L]]]; [congruence|].
  destruct (life_state _ _ _ _ _ W Hop L) as (f & lk & G & Hs & _). destruct (free_step _ _ _ _ _ Hs) as (h3 & E & G3 & _). exists rcs, h2, h3. split; [exact L|]. split; [exact E|]. apply (gentle_trans _ _ _ _ G G3).
Qed.

Lemma init_plenty : forall h0, heap_wf h0 -> plenty h0 -> fst (h_init_voucher h0) <> 0.
Proof. intros h0 W Pl. unfold h_init_voucher, alloc. rewrite Pl. cbn [fst]. destruct W. lia. Qed.

Lemma voucher_exact : forall h0 ops, heap_wf h0 -> plenty h0 -> Forall (op_ok h0) ops ->
  exists v h2 h3 lost, voucher_life h0 ops (results h0 unset ops) v h2 /\ h_free_voucher h2 v = Ok h3 /\ kept (hp_next h0) h0 h3 /\
    NoDup lost /\ List.length lost = overwritten h0 unset ops /\ forall a, hp_next h0 <= a -> (is_live h3 a <-> In a lost).
Proof.
  intros h0 ops W Pl Hop. pose proof (init_plenty h0 W Pl) as V0. destruct (h_init_voucher h0) as [v h1] eqn:Ei. cbn [fst] in V0.
  destruct (voucher_safe _ _ _ _ W Hop Ei V0) as (rcs & h2 & h3 & L & E & K). destruct (life_state _ _ _ _ _ W Hop L) as (f & lk & G & Hs & _ & P1). destruct (P1 Pl) as [-> [-> Ll]].
  destruct (free_step _ _ _ _ _ Hs) as (h3' & E' & G3 & D & B & Lv). rewrite E in E'. injection E' as <-. exists v, h2, h3, lk. auto 10.
Qed.

Lemma voucher_no_leak : forall h0 ops, heap_wf h0 -> plenty h0 -> Forall (op_ok h0) ops -> overwritten h0 unset ops = 0%nat ->
  exists v h2 h3, voucher_life h0 ops (results h0 unset ops) v h2 /\ h_free_voucher h2 v = Ok h3 /\ kept (hp_next h0) h0 h3 /\ no_leak (hp_next h0) h3.
Proof.
  intros h0 ops W Pl Hop H0. destruct (voucher_exact h0 ops W Pl Hop) as (v & h2 & h3 & lost & L & E & K & D & N & Lv). exists v, h2, h3. repeat (split; [assumption|]).
  rewrite H0 in N. destruct lost; [|discriminate]. intros a Ha X. apply (Lv a Ha) in X. exact X.
Qed.

Lemma voucher_contents : forall h0 ops rcs v h, heap_wf h0 -> plenty h0 -> Forall (op_ok h0) ops -> voucher_life h0 ops rcs v h ->
  rcs = results h0 unset ops /\ kept (hp_next h0) h0 h /\
  forall h', same_above (hp_next h0) h h' ->
    h_get_serial h' v = Ok (final h0 ops ASerial) /\ forall a i, arr_field a = Some i -> h_get_array h' v i = Ok (final h0 ops a).
Proof.
  intros h0 ops rcs v h W Pl Hop L. destruct (life_state _ _ _ _ _ W Hop L) as (f & lk & G & Hs & _ & P1). destruct (P1 Pl) as [-> [-> _]]. split; [reflexivity|]. split; [apply G|].
  intros h' Sa. eapply getters; eassumption.
Qed.

Lemma same_above_refl : forall n h, same_above n h h.
Proof. intros. split; auto. Qed.

Lemma voucher_failed : forall h0 ops rcs v h op rc h', heap_wf h0 -> Forall (op_ok h0) ops -> voucher_life h0 ops rcs v h -> op_ok h0 op -> do_op v h op = Ok (rc, h') ->
  (rc = 0%Z \/ rc = (-1)%Z) /\ (target op <> ASerial -> h_get_serial h' v = h_get_serial h v) /\
  (forall b j, b <> target op -> arr_field b = Some j -> h_get_array h' v j = h_get_array h v j) /\
  exists h'', h_free_voucher h' v = Ok h'' /\ kept (hp_next h0) h0 h''.
Proof.
  intros h0 ops rcs v h op rc h' W Hop L Ho E. destruct (life_state _ _ _ _ _ W Hop L) as (f & lk & G & Hs & Hsh & _).
  destruct (op_step _ _ _ _ _ _ W Hs Hsh (proj1 G) Ho) as (rc' & h1 & f1 & lk1 & E1 & G1 & Hs1 & _ & [M1 M2] & _). rewrite E in E1. injection E1 as <- <-.
  destruct (getters _ _ _ _ _ _ Hs (same_above_refl _ _)) as [A1 A2]. destruct (getters _ _ _ _ _ _ Hs1 (same_above_refl _ _)) as [B1 B2].
  split; [exact M1|]. split; [intros Ht; rewrite A1, B1, M2 by congruence; reflexivity|]. split; [intros b j Hb Hj; rewrite (A2 b j Hj), (B2 b j Hj), M2 by exact Hb; reflexivity|].
  destruct (free_step _ _ _ _ _ Hs1) as (h3 & E3 & G3 & _). exists h3. split; [exact E3|]. apply (gentle_trans _ _ _ _ G (gentle_trans _ _ _ _ G1 G3)).
Qed.

Lemma calls_snoc : forall A (g : heap -> A -> outcome (Z * heap)) l x h rcs h1 rc h2, calls g h l = Ok (rcs, h1) -> g h1 x = Ok (rc, h2) -> calls g h (l ++ [x]) = Ok (rcs ++ [rc], h2).
Proof.
  intros A g l. induction l as [|y l IH]; intros x h rcs h1 rc h2 E1 E2; cbn [calls app] in *.
  - injection E1 as <- <-. rewrite E2. reflexivity.
  - destruct (g h y) as [[r hh]|k]; cbn [obind fst snd] in *; [|discriminate]. destruct (calls g hh l) as [[rs h3]|k] eqn:E3; cbn [obind fst snd] in *; [|discriminate]. injection E1 as <- <-.
    rewrite (IH x hh rs h3 rc h2 E3 E2). reflexivity.
Qed.

Lemma voucher_copy_own : forall h0 ops rcs v h a b i j d, heap_wf h0 -> plenty h0 -> Forall (op_ok h0) ops -> voucher_life h0 ops rcs v h ->
  arr_field a = Some i -> arr_field b = Some j -> h_get_array h v j = Ok (Some d) ->
  exists h', h_set_attr_array h v a (v, j) = Ok (0%Z, h') /\ h_get_array h' v i = Ok (Some (if attr_dec a b then [] else d)) /\
    (a <> b -> h_get_array h' v j = Ok (Some d)).
Proof.
  intros h0 ops rcs v h a b i j d W Pl Hop L Hi Hj Hg. destruct (life_state _ _ _ _ _ W Hop L) as (f & lk & G & Hs & Hsh & _).
  destruct (getters _ _ _ _ _ _ Hs (same_above_refl _ _)) as [_ A2]. rewrite (A2 b j Hj) in Hg. injection Hg as Hg.
  destruct (op_step h0 h v f lk (CopyOwn a b) W Hs Hsh (proj1 G) Logic.I) as (rc & h1 & f1 & lk1 & E1 & G1 & Hs1 & _ & _ & P1).
  assert (Plh : plenty h) by (intros x; rewrite (proj1 (proj2 G)); apply Pl). destruct (P1 Plh) as [Hr [Hf _]].
  unfold do_op in E1. rewrite Hj in E1. unfold result, after, setting, is_array in Hr, Hf. rewrite Hi, Hj, Hg in Hr, Hf. cbn [andb] in Hr, Hf.
  exists h1. rewrite E1, Hr. split; [reflexivity|]. destruct (getters _ _ _ _ _ _ Hs1 (same_above_refl _ _)) as [_ B2]. rewrite (B2 a i Hi), (B2 b j Hj), Hf. unfold upd.
  destruct (attr_dec a a) as [_|X]; [|congruence]. split; [reflexivity|]. intros Hab. destruct (attr_dec a b) as [X|_]; [congruence|]. rewrite Hg. reflexivity.
Qed.
