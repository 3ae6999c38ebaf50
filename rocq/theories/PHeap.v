(** Linked lists on the heap: representation and release. *)
From Verif Require Import Base PBase MOs MHeap SHeap MArray.
Open Scope N_scope.

Lemma put_same : forall h a c, hp_cell (put h a c) a = c.
Proof. intros. cbn. rewrite N.eqb_refl. reflexivity. Qed.
Lemma put_other : forall h a c b, b <> a -> hp_cell (put h a c) b = hp_cell h b.
Proof. intros h a c b H. cbn. apply N.eqb_neq in H. rewrite H. reflexivity. Qed.
Lemma put_next : forall h a c, hp_next (put h a c) = hp_next h.
Proof. reflexivity. Qed.
Lemma put_oom : forall h a c, hp_oom (put h a c) = hp_oom h.
Proof. reflexivity. Qed.

Lemma load_struct : forall h a fs, a <> 0 -> hp_cell h a = Live (Struct fs) -> load h a = Ok fs.
Proof. intros h a fs H0 H. unfold load. apply N.eqb_neq in H0. rewrite H0, H. reflexivity. Qed.

Lemma get_ptr_at : forall h a fs i p, a <> 0 -> hp_cell h a = Live (Struct fs) -> nth_error fs i = Some (P p) -> get_ptr h a i = Ok p.
Proof. intros h a fs i p H0 H Hn. unfold get_ptr, get_field. rewrite (load_struct _ _ _ H0 H). cbn [obind]. rewrite Hn. reflexivity. Qed.
Lemma get_int_at : forall h a fs i z, a <> 0 -> hp_cell h a = Live (Struct fs) -> nth_error fs i = Some (I z) -> get_int h a i = Ok z.
Proof. intros h a fs i p H0 H Hn. unfold get_int, get_field. rewrite (load_struct _ _ _ H0 H). cbn [obind]. rewrite Hn. reflexivity. Qed.

Lemma set_field_at : forall h a fs i v x, a <> 0 -> hp_cell h a = Live (Struct fs) -> nth_error fs i = Some x ->
  set_field h a i v = Ok (put h a (Live (Struct (set_nthv fs i v)))).
Proof. intros h a fs i v x H0 H Hn. unfold set_field. rewrite (load_struct _ _ _ H0 H). cbn [obind]. rewrite Hn. reflexivity. Qed.

Lemma set_nthv_app : forall pre l i v, set_nthv (pre ++ l) (List.length pre + i) v = pre ++ set_nthv l i v.
Proof. induction pre; intros; cbn; [reflexivity|]. rewrite IHpre. reflexivity. Qed.
Lemma nth_pre : forall (pre l : list val) i, nth_error (pre ++ l) (List.length pre + i) = nth_error l i.
Proof. induction pre; intros; cbn; auto. Qed.

(** The links of a node with payload [pre]. *)
Definition node (pre : list val) (n p e : N) : cell := Live (Struct (pre ++ [P n; P p; P e])).

Lemma NoDup_app_snoc : forall (l : list N) x, NoDup l -> ~ In x l -> NoDup (l ++ [x]).
Proof.
  intros l x H1 H2. pose proof (NoDup_rev (l := x :: rev l)) as K. cbn [rev] in K. rewrite rev_involutive in K. apply K.
  constructor; [rewrite <- in_rev; exact H2|apply NoDup_rev; exact H1].
Qed.

Lemma NoDup_app_remove_l' : forall (a b : list N), NoDup (a ++ b) -> NoDup b.
Proof. induction a; intros b H; [exact H|]. inversion H; subst. auto. Qed.
Lemma NoDup_app_remove_r' : forall (a b : list N), NoDup (a ++ b) -> NoDup a.
Proof.
  induction a; intros b H; [constructor|]. inversion H; subst. constructor; [|eapply IHa; eassumption].
  intros Hin. apply H2. apply in_or_app. left. exact Hin.
Qed.
Lemma NoDup_app_drop_mid : forall (a b c : list N), NoDup (a ++ b ++ c) -> NoDup (a ++ c).
Proof.
  intros a b. revert a. induction b as [|x b IH]; intros a c H; [exact H|]. cbn [app] in H. apply NoDup_remove_1 in H. auto.
Qed.

Lemma is_live_iff : forall h a, is_live h a <-> exists b, hp_cell h a = Live b.
Proof. intros; reflexivity. Qed.

Section Links.
Variable off : nat.
Definition payload (pre : list val) : Prop := List.length pre = off.

Lemma get_next : forall h a pre n p e, a <> 0 -> payload pre -> hp_cell h a = node pre n p e -> get_ptr h a off = Ok n.
Proof. intros h a pre n p e H0 Hp H. eapply get_ptr_at; [exact H0|exact H|]. rewrite <- Hp, <- (Nat.add_0_r (List.length pre)), nth_pre. reflexivity. Qed.
Lemma get_prev : forall h a pre n p e, a <> 0 -> payload pre -> hp_cell h a = node pre n p e -> get_ptr h a (off + 1) = Ok p.
Proof. intros h a pre n p e H0 Hp H. eapply get_ptr_at; [exact H0|exact H|]. rewrite <- Hp, nth_pre. reflexivity. Qed.
Lemma get_el : forall h a pre n p e, a <> 0 -> payload pre -> hp_cell h a = node pre n p e -> get_ptr h a (off + 2) = Ok e.
Proof. intros h a pre n p e H0 Hp H. eapply get_ptr_at; [exact H0|exact H|]. rewrite <- Hp, nth_pre. reflexivity. Qed.

Lemma set_next : forall h a pre n p e m, a <> 0 -> payload pre -> hp_cell h a = node pre n p e -> set_field h a off (P m) = Ok (put h a (node pre m p e)).
Proof.
  intros h a pre n p e m H0 Hp H. rewrite (set_field_at _ _ _ _ _ (P n) H0 H).
  - unfold node. rewrite <- Hp. rewrite <- (Nat.add_0_r (List.length pre)), set_nthv_app. reflexivity.
  - rewrite <- Hp, <- (Nat.add_0_r (List.length pre)), nth_pre. reflexivity.
Qed.
Lemma set_prev : forall h a pre n p e m, a <> 0 -> payload pre -> hp_cell h a = node pre n p e -> set_field h a (off + 1) (P m) = Ok (put h a (node pre n m e)).
Proof.
  intros h a pre n p e m H0 Hp H. rewrite (set_field_at _ _ _ _ _ (P p) H0 H).
  - unfold node. rewrite <- Hp, set_nthv_app. reflexivity.
  - rewrite <- Hp, nth_pre. reflexivity.
Qed.
Lemma set_el : forall h a pre n p e m, a <> 0 -> payload pre -> hp_cell h a = node pre n p e -> set_field h a (off + 2) (P m) = Ok (put h a (node pre n p m)).
Proof.
  intros h a pre n p e m H0 Hp H. rewrite (set_field_at _ _ _ _ _ (P e) H0 H).
  - unfold node. rewrite <- Hp, set_nthv_app. reflexivity.
  - rewrite <- Hp, nth_pre. reflexivity.
Qed.

(** ** Rings *)
Definition nodes := list (N * list val).
Definition head_of (ns : nodes) (q : N) : N := match ns with [] => q | (a, _) :: _ => a end.
Definition last_of (p : N) (ns : nodes) : N := match rev ns with [] => p | (a, _) :: _ => a end.

Fixpoint seg (h : heap) (p : N) (ns : nodes) (q : N) : Prop :=
  match ns with
  | [] => True
  | (a, pre) :: r => payload pre /\ a <> 0 /\ hp_cell h a = node pre (head_of r q) p a /\ seg h a r q
  end.
Definition ring (h : heap) (H : N) (hpre : list val) (ns : nodes) : Prop :=
  payload hpre /\ H <> 0 /\ hp_cell h H = node hpre (head_of ns H) (last_of H ns) H /\ seg h H ns H /\ NoDup (H :: map fst ns).

Lemma seg_frame : forall ns h h' p q, (forall a, In a (map fst ns) -> hp_cell h' a = hp_cell h a) -> seg h p ns q -> seg h' p ns q.
Proof.
  induction ns as [|[a pre] r IH]; intros h h' p q Hf Hs; [exact Logic.I|]. cbn [seg] in *. destruct Hs as [A [B [C D]]].
  split; [exact A|]. split; [exact B|]. split; [rewrite Hf by (left; reflexivity); exact C|].
  eapply IH; [|exact D]. intros b Hb. apply Hf. right. exact Hb.
Qed.

Lemma head_of_app : forall a b q, head_of (a ++ b) q = head_of a (head_of b q).
Proof. intros [|[x ?] a] b q; reflexivity. Qed.
Lemma last_of_snoc : forall p ns a pre, last_of p (ns ++ [(a, pre)]) = a.
Proof. intros. unfold last_of. rewrite rev_app_distr. reflexivity. Qed.
Lemma last_of_cons : forall p a pre r, last_of p ((a, pre) :: r) = last_of a r.
Proof.
  intros p a pre r. unfold last_of. cbn [rev]. destruct (rev r) as [|[b ?] s]; reflexivity.
Qed.

Lemma seg_app : forall x y h p q, seg h p (x ++ y) q <-> seg h p x (head_of y q) /\ seg h (last_of p x) y q.
Proof.
  induction x as [|[a pre] x IH]; intros y h p q.
  - cbn. tauto.
  - cbn [seg app]. rewrite last_of_cons, head_of_app, IH. tauto.
Qed.

(** *** Adding at the tail *)
Ltac cells := repeat (rewrite put_same || rewrite put_other by congruence); first [reflexivity|eassumption].
Ltac gn := erewrite get_next; [|assumption| |cells]; [cbn [obind]|assumption].
Ltac gp := erewrite get_prev; [|assumption| |cells]; [cbn [obind]|assumption].
Ltac ge := erewrite get_el; [|assumption| |cells]; [cbn [obind]|assumption].
Ltac sn := erewrite set_next; [|assumption| |cells]; [cbn [obind]|assumption].
Ltac sp := erewrite set_prev; [|assumption| |cells]; [cbn [obind]|assumption].
Ltac se := erewrite set_el; [|assumption| |cells]; [cbn [obind]|assumption].

Lemma snoc_cases : forall ns : nodes, ns = [] \/ exists ns' z zpre, ns = ns' ++ [(z, zpre)].
Proof.
  intros ns. destruct ns as [|x r]; [left; reflexivity|]. right.
  destruct (@exists_last _ (x :: r)) as [ns' [[z zpre] E]]; [discriminate|]. exists ns', z, zpre. exact E.
Qed.

Lemma add_tail_ring : forall h H hpre ns it ipre n p e,
  ring h H hpre ns -> it <> 0 -> payload ipre -> ~ In it (H :: map fst ns) -> hp_cell h it = node ipre n p e ->
  exists h', dl_list_add_tail off h H it it = Ok h' /\ ring h' H hpre (ns ++ [(it, ipre)]) /\
    hp_next h' = hp_next h /\ hp_oom h' = hp_oom h /\
    (forall a, ~ In a (H :: it :: map fst ns) -> hp_cell h' a = hp_cell h a).
Proof.
  intros h H hpre ns it ipre n p e [R1 [R2 [R3 [R4 R5]]]] I0 Ip Hni Hi. unfold dl_list_add_tail.
  assert (HiH : it <> H) by (intros ->; apply Hni; left; reflexivity).
  destruct (snoc_cases ns) as [->|[ns' [z [zpre ->]]]].
  - cbn [head_of last_of rev] in *. gp. gn. sn. sp. gn. sp. sn. gn.
    erewrite set_el; [|assumption| |cells]; [|assumption].
    eexists. split; [reflexivity|]. split.
    + split; [exact R1|]. split; [exact R2|]. split; [cells|]. split.
      * cbn [app seg head_of]. split; [exact Ip|]. split; [exact I0|]. split; [cells|exact Logic.I].
      * cbn. constructor; [intros [E|[]]; congruence|]. constructor; [intros []|constructor].
    + split; [reflexivity|]. split; [reflexivity|]. intros a Ha. cbn in Ha. repeat rewrite put_other by (let E := fresh in intros E; symmetry in E; tauto). reflexivity.
  - assert (Hzi : z <> it) by (intros ->; apply Hni; right; rewrite map_app; apply in_or_app; right; left; reflexivity).
    rewrite map_app in Hni, R5. cbn [map fst] in Hni, R5.
    assert (HzH : z <> H) by (intros ->; inversion R5; subst; apply H2; apply in_or_app; right; left; reflexivity).
    rewrite last_of_snoc, head_of_app in R3. cbn [head_of] in R3. apply seg_app in R4. destruct R4 as [S1 S2]. cbn [head_of seg] in S1, S2. destruct S2 as [Zp [Z0 [Zc _]]].
    gp. gn. sn. sp. gn. sp. sn. gn.
    erewrite set_el; [|assumption| |cells]; [|assumption].
    eexists. split; [reflexivity|].
    assert (Hns : forall a, In a (map fst ns') -> a <> it /\ a <> H /\ a <> z).
    { intros a Ha. split; [intros ->; apply Hni; right; apply in_or_app; left; exact Ha|].
      inversion R5 as [|? ? Q1 Q2]; subst. split; [intros ->; apply Q1; apply in_or_app; left; exact Ha|].
      intros ->. apply NoDup_remove_2 in Q2. apply Q2. rewrite app_nil_r. exact Ha. }
    split.
    + split; [exact R1|]. split; [exact R2|]. split.
      { rewrite last_of_snoc, !head_of_app. cbn [head_of]. cells. }
      split.
      * rewrite <- app_assoc. apply seg_app. cbn [head_of app]. split.
        -- eapply seg_frame; [|exact S1]. intros a Ha. destruct (Hns a Ha) as [? [? ?]]. repeat rewrite put_other by congruence. reflexivity.
        -- cbn [seg head_of app]. split; [exact Zp|]. split; [exact Z0|]. split; [cells|]. split; [exact Ip|]. split; [exact I0|]. split; [cells|exact Logic.I].
      * rewrite map_app. rewrite map_app. cbn [map fst]. rewrite app_comm_cons. apply NoDup_app_snoc; [exact R5|exact Hni].
    + split; [reflexivity|]. split; [reflexivity|]. intros a Ha. rewrite map_app in Ha. cbn in Ha. rewrite in_app_iff in Ha. cbn in Ha.
      repeat rewrite put_other by (let E := fresh in intros E; symmetry in E; tauto). reflexivity.
Qed.

(** *** Removing the first node *)
Lemma ring_next : forall h H hpre a pre r, ring h H hpre ((a, pre) :: r) -> a <> H.
Proof. intros h H hpre a pre r [_ [_ [_ [_ R]]]] ->. inversion R; subst. apply H2. left. reflexivity. Qed.

Lemma del_first : forall h H hpre a pre r, ring h H hpre ((a, pre) :: r) ->
  exists h', dl_list_del off h a = Ok h' /\ ring h' H hpre r /\ hp_cell h' a = node pre 0 0 a /\
    hp_next h' = hp_next h /\ hp_oom h' = hp_oom h /\
    (forall b, ~ In b (H :: a :: map fst r) -> hp_cell h' b = hp_cell h b).
Proof.
  intros h H hpre a pre r HR. pose proof (ring_next _ _ _ _ _ _ HR) as HaH. destruct HR as [R1 [R2 [R3 [R4 R5]]]].
  cbn [seg] in R4. destruct R4 as [A1 [A2 [A3 A4]]]. cbn [head_of] in R3. rewrite last_of_cons in R3.
  unfold dl_list_del. inversion R5 as [|? ? N1 N2]; subst. cbn [map fst] in N1, N2. inversion N2 as [|? ? N3 N4]; subst.
  destruct r as [|[b bpre] r].
  - cbn [head_of last_of rev] in *. gn. gp. sp. gp. gn. sn. sn. erewrite set_prev; [|assumption| |cells]; [|assumption].
    eexists. split; [reflexivity|]. split.
    + split; [exact R1|]. split; [exact R2|]. split; [cells|]. split; [exact Logic.I|]. constructor; [intros []|constructor].
    + split; [cells|]. split; [reflexivity|]. split; [reflexivity|]. intros c Hc. cbn in Hc.
      repeat rewrite put_other by (let E := fresh in intros E; symmetry in E; tauto). reflexivity.
  - cbn [map fst] in *. cbn [seg] in A4. destruct A4 as [B1 [B2 [B3 B4]]]. cbn [head_of] in A3. rewrite last_of_cons in R3.
    assert (Hba : b <> a) by (intros ->; apply N3; left; reflexivity).
    assert (HbH : b <> H) by (intros ->; apply N1; right; left; reflexivity).
    gn. gp. sp. gp. gn. sn. sn. erewrite set_prev; [|assumption| |cells]; [|assumption].
    eexists. split; [reflexivity|]. split.
    + split; [exact R1|]. split; [exact R2|]. split; [rewrite last_of_cons; cbn [head_of]; cells|]. split.
      * cbn [seg]. split; [exact B1|]. split; [exact B2|]. split; [cells|].
        eapply seg_frame; [|exact B4]. intros c Hc. inversion N4 as [|? ? N5 N6]; subst.
        assert (c <> a /\ c <> H /\ c <> b) as [? [? ?]].
        { split; [intros ->; apply N3; right; exact Hc|]. split; [intros ->; apply N1; right; right; exact Hc|intros ->; exact (N5 Hc)]. }
        repeat rewrite put_other by congruence. reflexivity.
      * cbn [map fst]. constructor; [intros Hin; apply N1; right; exact Hin|exact N4].
    + split; [cells|]. split; [reflexivity|]. split; [reflexivity|]. intros c Hc. cbn in Hc.
      repeat rewrite put_other by (let E := fresh in intros E; symmetry in E; tauto). reflexivity.
Qed.

Lemma del_head : forall h H hpre, ring h H hpre [] ->
  exists h', dl_list_del off h H = Ok h' /\ hp_cell h' H = node hpre 0 0 H /\
    hp_next h' = hp_next h /\ hp_oom h' = hp_oom h /\ (forall b, b <> H -> hp_cell h' b = hp_cell h b).
Proof.
  intros h H hpre [R1 [R2 [R3 _]]]. unfold dl_list_del. cbn [head_of last_of rev] in R3.
  gn. gp. sp. gp. gn. sn. sn. erewrite set_prev; [|assumption| |cells]; [|assumption].
  eexists. split; [reflexivity|]. split; [cells|]. split; [reflexivity|]. split; [reflexivity|].
  intros b Hb. repeat rewrite put_other by congruence. reflexivity.
Qed.

(** *** Releasing *)
Variable owned : list nat.
Definition ptr_at (pre : list val) (i : nat) : N := match nth_error pre i with Some (P a) => a | _ => 0 end.
Definition own (l : list nat) (pre : list val) : list N := filter (fun a => negb (a =? 0)) (map (ptr_at pre) l).
Definition fields_ok (pre : list val) : Prop := forall i, In i owned -> exists p, nth_error pre i = Some (P p).

Lemma free_fields_ok : forall l h el fs, el <> 0 -> hp_cell h el = Live (Struct fs) ->
  (forall i, In i l -> exists p, nth_error fs i = Some (P p)) -> NoDup (own l fs) -> ~ In el (own l fs) ->
  (forall a, In a (own l fs) -> is_live h a) ->
  exists h', free_fields h el l = Ok h' /\ released h h' (own l fs) /\ hp_next h' = hp_next h /\ hp_oom h' = hp_oom h.
Proof.
  induction l as [|i l IH]; intros h el fs E0 Ec Hi Hd Hn Hl.
  - exists h. cbn. repeat split; try tauto; try (intros; reflexivity).
  - cbn [free_fields]. destruct (Hi i (or_introl eq_refl)) as [p Hp]. rewrite (get_ptr_at _ _ _ _ _ E0 Ec Hp). cbn [obind].
    unfold own in *. cbn [map] in *. assert (Pi : ptr_at fs i = p) by (unfold ptr_at; rewrite Hp; reflexivity). rewrite Pi in *. cbn [filter] in *.
    destruct (p =? 0) eqn:E; cbn [negb obind] in *.
    + apply IH; auto. intros j Hj. apply Hi. right. exact Hj.
    + apply N.eqb_neq in E. destruct (Hl p (or_introl eq_refl)) as [b Hb]. unfold sys_free. destruct (p =? 0) eqn:E'; [apply N.eqb_eq in E'; congruence|].
      rewrite Hb. cbn [obind]. inversion Hd as [|? ? D1 D2]; subst.
      assert (Hpe : el <> ptr_at fs i) by (intros ->; apply Hn; left; reflexivity).
      destruct (IH (put h (ptr_at fs i) Freed) el fs) as [h' [F1 [[F2 F3] [F4 F5]]]]; auto.
      * rewrite put_other by congruence. exact Ec.
      * intros j Hj. apply Hi. right. exact Hj.
      * intros Hin. apply Hn. right. exact Hin.
      * intros a Ha. destruct (Hl a (or_intror Ha)) as [c Hc]. exists c. rewrite put_other by (intros ->; exact (D1 Ha)). exact Hc.
      * exists h'. split; [exact F1|]. split; [|split; [exact F4|exact F5]]. split.
        -- intros a [<-|Ha].
           ++ split; [exists b; exact Hb|]. rewrite F3 by exact D1. apply put_same.
           ++ destruct (F2 a Ha) as [[c Hc] G]. split; [|exact G]. exists c. rewrite put_other in Hc by (intros ->; exact (D1 Ha)). exact Hc.
        -- intros a Ha. cbn [In] in Ha. rewrite F3 by tauto. apply put_other. intros ->. tauto.
Qed.

Lemma own_pre : forall l pre rest, (forall i, In i l -> exists p, nth_error pre i = Some (P p)) -> own l (pre ++ rest) = own l pre.
Proof.
  intros l pre rest Hi. unfold own. f_equal. apply map_ext_in. intros i Hin. unfold ptr_at. destruct (Hi i Hin) as [p Hp].
  rewrite nth_error_app1; [reflexivity|]. apply nth_error_Some. congruence.
Qed.

Definition bufs (ns : nodes) : list N := flat_map (fun n => own owned (snd n)) ns.

(** A complete list: the nodes form a ring, the buffers they own are live, and
    all these blocks are different. *)
Definition list_ok (h : heap) (H : N) (hpre : list val) (ns : nodes) : Prop :=
  ring h H hpre ns /\ Forall (fun n => fields_ok (snd n)) ns /\ fields_ok hpre /\ own owned hpre = [] /\
  NoDup (H :: map fst ns ++ bufs ns) /\ (forall a, In a (bufs ns) -> is_live h a).

Lemma fields_app : forall pre rest, fields_ok pre -> fields_ok (pre ++ rest).
Proof. intros pre rest H i Hi. destruct (H i Hi) as [p Hp]. exists p. rewrite nth_error_app1; [exact Hp|]. apply nth_error_Some. congruence. Qed.

Lemma ring_other : forall h h' H hpre ns, (forall a, In a (H :: map fst ns) -> hp_cell h' a = hp_cell h a) -> ring h H hpre ns -> ring h' H hpre ns.
Proof.
  intros h h' H hpre ns Hf [R1 [R2 [R3 [R4 R5]]]]. split; [exact R1|]. split; [exact R2|]. split; [rewrite Hf by (left; reflexivity); exact R3|].
  split; [|exact R5]. eapply seg_frame; [|exact R4]. intros a Ha. apply Hf. right. exact Ha.
Qed.

Lemma free_first : forall h H hpre a pre r, list_ok h H hpre ((a, pre) :: r) ->
  exists h', free_list_el off owned h a = Ok h' /\ list_ok h' H hpre r /\
    (forall b, In b (a :: own owned pre) -> hp_cell h' b = Freed) /\
    (forall b, ~ In b (H :: a :: own owned pre ++ map fst r) -> hp_cell h' b = hp_cell h b) /\
    hp_next h' = hp_next h /\ hp_oom h' = hp_oom h.
Proof.
  intros h H hpre a pre r [HR [L2 [L3 [L4 [L5 L6]]]]]. pose proof (ring_next _ _ _ _ _ _ HR) as HaH.
  pose proof HR as [R1 [R2 [R3 [R4 R5]]]]. cbn [seg] in R4. destruct R4 as [A1 [A2 [A3 A4]]].
  inversion L2 as [|? ? Fp Fr]; subst. cbn [snd] in Fp.
  unfold bufs in L5, L6. cbn [flat_map snd map fst] in L5, L6. fold (bufs r) in L5, L6.
  inversion L5 as [|? ? N1 N2]; subst. cbn [app] in N1, N2. inversion N2 as [|? ? N3 N4]; subst.
  assert (Hown : own owned (pre ++ [P (head_of r H); P H; P a]) = own owned pre) by (apply own_pre; exact Fp).
  assert (Dis : forall x, In x (own owned pre) -> x <> H /\ x <> a /\ ~ In x (map fst r) /\ ~ In x (bufs r)).
  { intros x Hx. split; [intros ->; apply N1; right; apply in_or_app; right; apply in_or_app; left; exact Hx|].
    split; [intros ->; apply N3; apply in_or_app; right; apply in_or_app; left; exact Hx|]. split.
    - intros Hin. apply in_split in Hin. destruct Hin as [u [v E]]. rewrite E in N4. rewrite <- app_assoc in N4. cbn [app] in N4.
      apply NoDup_remove_2 in N4. apply N4. apply in_or_app. right. apply in_or_app. right. apply in_or_app. left. exact Hx.
    - intros Hin. apply in_split in Hx. destruct Hx as [u [v E]]. rewrite E in N4. rewrite <- app_assoc in N4. cbn [app] in N4. rewrite app_assoc in N4.
      apply NoDup_remove_2 in N4. apply N4. rewrite <- app_assoc. apply in_or_app. right. apply in_or_app. right. apply in_or_app. right. exact Hin. }
  unfold free_list_el. pose proof A2 as A2'. apply N.eqb_neq in A2'. rewrite A2'.
  destruct (free_fields_ok owned h a _ A2 A3) as [h1 [F1 [[F2 F3] [F4 F5]]]].
  { apply fields_app. exact Fp. }
  { rewrite Hown. clear -N4. apply NoDup_app_remove_l' in N4. apply NoDup_app_remove_r' in N4. exact N4. }
  { rewrite Hown. intros Hin. destruct (Dis a Hin) as [_ [D _]]. congruence. }
  { rewrite Hown. intros x Hx. apply L6. apply in_or_app. left. exact Hx. }
  rewrite Hown in F2, F3. rewrite F1. cbn [obind].
  assert (HR1 : ring h1 H hpre ((a, pre) :: r)).
  { eapply ring_other; [|exact HR]. intros x Hx. apply F3. intros Hin. destruct (Dis x Hin) as [D1 [D2 [D3 _]]]. cbn in Hx.
    destruct Hx as [<-|[<-|Hx]]; tauto. }
  destruct (del_first _ _ _ _ _ _ HR1) as [h2 [G1 [G2 [G3 [G4 [G5 G6]]]]]]. rewrite G1. cbn [obind].
  unfold sys_free. rewrite A2', G3. cbn [node].
  exists (put h2 a Freed). split; [reflexivity|].
  assert (HnaR : ~ In a (H :: map fst r)).
  { intros [->|Hin]; [congruence|]. apply N3. apply in_or_app. left. exact Hin. }
  split.
  - split; [eapply ring_other; [|exact G2]; intros x Hx; apply put_other; intros ->; exact (HnaR Hx)|].
    split; [exact Fr|]. split; [exact L3|]. split; [exact L4|]. split.
    + constructor; [intros Hin; apply N1; right; apply in_app_iff in Hin; apply in_app_iff; rewrite in_app_iff; tauto|].
      clear -N4. apply NoDup_app_drop_mid in N4. exact N4.
    + intros x Hx. assert (x <> a) by (intros ->; apply N3; apply in_or_app; right; apply in_or_app; right; exact Hx).
      destruct (L6 x) as [c Hc]; [apply in_or_app; right; exact Hx|]. exists c. rewrite put_other by assumption.
      rewrite G6. { rewrite F3; [exact Hc|]. intros Hin. destruct (Dis x Hin) as [_ [_ [_ D]]]. exact (D Hx). }
      intros [->|[->|Hin]]; [apply N1; right; apply in_or_app; right; apply in_or_app; right; exact Hx|congruence|].
      clear -N4 Hx Hin. apply in_split in Hin. destruct Hin as [u [v E]]. rewrite E in N4. rewrite <- app_assoc in N4. cbn [app] in N4.
      apply NoDup_remove_2 in N4. apply N4. apply in_or_app. right. apply in_or_app. right. apply in_or_app. right. exact Hx.
  - split.
    + intros b [<-|Hb]; [apply put_same|]. destruct (Dis b Hb) as [D1 [D2 [D3 D4]]]. rewrite put_other by congruence.
      rewrite G6; [apply F2; exact Hb|]. cbn. intros [E|[E|E]]; [congruence|congruence|exact (D3 E)].
    + split; [|split; [rewrite put_next; congruence|rewrite put_oom; congruence]].
      intros b Hb. cbn in Hb. rewrite in_app_iff in Hb. rewrite put_other by (intros ->; tauto). rewrite G6 by (cbn; tauto). apply F3. tauto.
Qed.

Lemma first_of : forall h H hpre ns, ring h H hpre ns -> dl_list_first off h H = Ok (head_of ns 0).
Proof.
  intros h H hpre ns HR. unfold dl_list_first. pose proof HR as [R1 [R2 [R3 [R4 R5]]]]. rewrite (get_next _ _ _ _ _ _ R2 R1 R3). cbn [obind].
  destruct ns as [|[a pre] r]; cbn [head_of].
  - rewrite N.eqb_refl. reflexivity.
  - pose proof (ring_next _ _ _ _ _ _ HR) as Ha. apply N.eqb_neq in Ha. rewrite Ha. destruct R4 as [A1 [A2 [A3 _]]].
    exact (get_el _ _ _ _ _ _ A2 A1 A3).
Qed.

Lemma free_loop : forall ns fuel h H hpre, list_ok h H hpre ns -> (List.length ns < fuel)%nat ->
  exists h', free_list_loop off owned fuel h H = Ok h' /\ list_ok h' H hpre [] /\
    (forall b, In b (map fst ns ++ bufs ns) -> hp_cell h' b = Freed) /\
    (forall b, ~ In b (H :: map fst ns ++ bufs ns) -> hp_cell h' b = hp_cell h b) /\
    hp_next h' = hp_next h /\ hp_oom h' = hp_oom h.
Proof.
  induction ns as [|[a pre] r IH]; intros fuel h H hpre HL Hf; (destruct fuel; [lia|]); cbn [free_list_loop];
    pose proof HL as [HR _]; rewrite (first_of _ _ _ _ HR); cbn [obind head_of].
  - cbn [N.eqb]. exists h. split; [reflexivity|]. split; [exact HL|]. split; [intros b []|]. auto.
  - assert (A0 : a <> 0) by (destruct HR as [_ [_ [_ [[_ [A _]] _]]]]; exact A).
    apply N.eqb_neq in A0. rewrite A0. destruct (free_first _ _ _ _ _ _ HL) as [h1 [F1 [F2 [F3 [F4 [F5 F6]]]]]]. rewrite F1. cbn [obind].
    destruct (IH fuel h1 H hpre F2) as [h2 [G1 [G2 [G3 [G4 [G5 G6]]]]]]; [cbn in Hf; lia|].
    exists h2. split; [exact G1|]. split; [exact G2|].
    destruct HL as [_ [_ [_ [_ [ND _]]]]]. unfold bufs in ND. cbn [flat_map map fst snd] in ND. fold (bufs r) in ND.
    unfold bufs. cbn [flat_map map fst snd app]. fold (bufs r).
    inversion ND as [|? ? N1 N2]; subst. cbn [app] in N1, N2. inversion N2 as [|? ? N3 N4]; subst.
    split; [|split; [|split; congruence]].
    + intros b Hb. assert (C : In b (map fst r ++ bufs r) \/ In b (a :: own owned pre)).
      { cbn [In] in Hb |- *. rewrite !in_app_iff in Hb. rewrite in_app_iff. tauto. }
      destruct C as [C|C]; [apply G3; exact C|].
      destruct (in_dec N.eq_dec b (H :: map fst r ++ bufs r)) as [D|D].
      * destruct D as [<-|D]; [|apply G3; exact D]. exfalso. apply N1. cbn [In] in C |- *. rewrite !in_app_iff. tauto.
      * rewrite G4 by exact D. apply F3. exact C.
    + intros b Hb. cbn [In app] in Hb. rewrite !in_app_iff in Hb. rewrite G4 by (cbn [In]; rewrite in_app_iff; tauto).
      apply F4. cbn [In]. rewrite in_app_iff. tauto.
Qed.

Lemma seg_live : forall ns h p q a, seg h p ns q -> In a (map fst ns) -> is_live h a.
Proof.
  induction ns as [|[x pre] r IH]; intros h p q a Hs Ha; [destruct Ha|]. cbn [seg] in Hs. destruct Hs as [A [B [C D]]].
  destruct Ha as [<-|Ha]; [eexists; exact C|]. eapply IH; eassumption.
Qed.

Lemma bound_len : forall (l : list N) n, NoDup l -> (forall a, In a l -> a < n) -> (List.length l <= N.to_nat n)%nat.
Proof.
  intros l n Hd Hb. replace (N.to_nat n) with (List.length (map N.of_nat (seq 0 (N.to_nat n)))) by (rewrite map_length, seq_length; reflexivity).
  apply NoDup_incl_length; [exact Hd|]. intros a Ha. apply in_map_iff. exists (N.to_nat a). specialize (Hb a Ha).
  split; [lia|]. apply in_seq. lia.
Qed.

Lemma list_live : forall h H hpre ns a, list_ok h H hpre ns -> In a (H :: map fst ns ++ bufs ns) -> is_live h a.
Proof.
  intros h H hpre ns a [[R1 [R2 [R3 [R4 R5]]]] [_ [_ [_ [_ L]]]]] [<-|Ha]; [eexists; exact R3|].
  apply in_app_iff in Ha. destruct Ha as [Ha|Ha]; [eapply seg_live; eassumption|exact (L a Ha)].
Qed.

Lemma live_below : forall h a, heap_wf h -> is_live h a -> a < hp_next h.
Proof. intros h a [_ [_ W]] [b Hb]. destruct (N.lt_ge_cases a (hp_next h)) as [L|L]; [exact L|]. rewrite W in Hb by exact L. discriminate. Qed.

Lemma list_short : forall h H hpre ns, heap_wf h -> list_ok h H hpre ns -> (List.length ns < N.to_nat (hp_next h))%nat.
Proof.
  intros h H hpre ns W L. pose proof (bound_len (H :: map fst ns) (hp_next h)) as B. cbn [List.length] in B. rewrite map_length in B. apply B.
  - destruct L as [[_ [_ [_ [_ R]]]] _]. exact R.
  - intros a Ha. apply live_below; [exact W|]. eapply list_live; [exact L|]. destruct Ha as [<-|Ha]; [left; reflexivity|right; apply in_or_app; left; exact Ha].
Qed.

(** C12. *)
Lemma free_list_ok : forall h H hpre ns, heap_wf h -> list_ok h H hpre ns ->
  exists h', free_list off owned h H = Ok h' /\ released h h' (H :: map fst ns ++ bufs ns) /\ hp_next h' = hp_next h /\ hp_oom h' = hp_oom h.
Proof.
  intros h H hpre ns W HL. unfold free_list. assert (H0 : H <> 0) by (destruct HL as [[_ [A _]] _]; exact A).
  pose proof H0 as H0'. apply N.eqb_neq in H0'. rewrite H0'.
  destruct (free_loop ns (S (N.to_nat (hp_next h))) h H hpre HL) as [h1 [F1 [F2 [F3 [F4 [F5 F6]]]]]].
  { pose proof (list_short _ _ _ _ W HL). lia. }
  rewrite F1. cbn [obind]. unfold free_list_el. rewrite H0'.
  destruct F2 as [FR [_ [Fh [Fo _]]]]. pose proof FR as [R1 [_ [R3 _]]].
  assert (Hown : own owned (hpre ++ [P (head_of [] H); P (last_of H []); P H]) = []) by (rewrite own_pre; [exact Fo|exact Fh]).
  destruct (free_fields_ok owned h1 H _ H0 R3) as [h2 [E1 [[_ E2] [E3 E4]]]]; try (rewrite Hown; cbn; try tauto; try constructor).
  { apply fields_app. exact Fh. }
  rewrite E1. cbn [obind]. rewrite Hown in E2.
  destruct (del_head h2 H hpre) as [h3 [D1 [D2 [D3 [D4 D5]]]]].
  { eapply ring_other; [|exact FR]. intros a _. apply E2. intros []. }
  rewrite D1. cbn [obind]. unfold sys_free. rewrite H0', D2. cbn [node]. exists (put h3 H Freed). split; [reflexivity|].
  pose proof HL as [_ [_ [_ [_ [ND _]]]]]. inversion ND as [|? ? N1 N2]; subst.
  split; [|split; [rewrite put_next; congruence|rewrite put_oom; congruence]]. split.
  - intros a Ha. split; [eapply list_live; eassumption|]. destruct Ha as [<-|Ha]; [apply put_same|].
    rewrite put_other by (intros ->; exact (N1 Ha)). rewrite D5 by (intros ->; exact (N1 Ha)). rewrite E2 by (intros []). apply F3. exact Ha.
  - intros a Ha. rewrite put_other by (intros ->; apply Ha; left; reflexivity). rewrite D5 by (intros ->; apply Ha; left; reflexivity).
    rewrite E2 by (intros []). apply F4. exact Ha.
Qed.

(** *** Walking *)
Lemma walk_seg : forall ns h H p fuel, H <> 0 -> ~ In H (map fst ns) -> seg h p ns H -> (exists hpre n q, payload hpre /\ hp_cell h H = node hpre n q H) ->
  (List.length ns < fuel)%nat -> dl_list_for_each_from off h H fuel (head_of ns H) = Ok (map fst ns).
Proof.
  induction ns as [|[a pre] r IH]; intros h H p fuel H0 Hn Hs Hh Hf; (destruct fuel; [lia|]); cbn [dl_list_for_each_from head_of].
  - rewrite N.eqb_refl. reflexivity.
  - cbn [map fst In] in Hn. assert (Ha : a <> H) by tauto. apply N.eqb_neq in Ha. rewrite Ha. cbn [seg] in Hs. destruct Hs as [A1 [A2 [A3 A4]]].
    rewrite (get_next _ _ _ _ _ _ A2 A1 A3). cbn [obind].
    assert (E : get_ptr h (head_of r H) (off + 2) = Ok (head_of r H)).
    { destruct r as [|[b bpre] r]; cbn [head_of].
      - destruct Hh as [hpre [n [q [B1 B2]]]]. exact (get_el _ _ _ _ _ _ H0 B1 B2).
      - destruct A4 as [B1 [B2 [B3 _]]]. exact (get_el _ _ _ _ _ _ B2 B1 B3). }
    rewrite E. cbn [obind]. cbn [List.length] in Hf. rewrite (IH h H a fuel); auto; lia.
Qed.

Lemma head_el : forall h H hpre ns, ring h H hpre ns -> get_ptr h (head_of ns H) (off + 2) = Ok (head_of ns H).
Proof.
  intros h H hpre ns [R1 [R2 [R3 [R4 R5]]]]. destruct ns as [|[b bpre] r]; cbn [head_of].
  - exact (get_el _ _ _ _ _ _ R2 R1 R3).
  - destruct R4 as [B1 [B2 [B3 _]]]. exact (get_el _ _ _ _ _ _ B2 B1 B3).
Qed.

Lemma for_each_ok : forall h H hpre ns, heap_wf h -> list_ok h H hpre ns -> dl_list_for_each off h H = Ok (map fst ns).
Proof.
  intros h H hpre ns W HL. pose proof (list_short _ _ _ _ W HL) as HS. destruct HL as [HR _]. pose proof HR as [R1 [R2 [R3 [R4 R5]]]].
  unfold dl_list_for_each. rewrite (get_next _ _ _ _ _ _ R2 R1 R3). cbn [obind]. rewrite (head_el _ _ _ _ HR). cbn [obind].
  inversion R5; subst. eapply walk_seg; eauto.
Qed.

Lemma len_seg : forall ns h H p fuel c, ~ In H (map fst ns) -> seg h p ns H -> (List.length ns < fuel)%nat ->
  dl_list_len_from off h H fuel (head_of ns H) c = Ok (c + N.of_nat (List.length ns)).
Proof.
  induction ns as [|[a pre] r IH]; intros h H p fuel c Hn Hs Hf; (destruct fuel; [lia|]); cbn [dl_list_len_from head_of].
  - rewrite N.eqb_refl. f_equal. cbn. lia.
  - cbn [map fst In] in Hn. assert (Ha : a <> H) by tauto. apply N.eqb_neq in Ha. rewrite Ha. cbn [seg] in Hs. destruct Hs as [A1 [A2 [A3 A4]]].
    rewrite (get_next _ _ _ _ _ _ A2 A1 A3). cbn [obind]. rewrite (IH h H a); auto; [|cbn in Hf; lia]. f_equal. cbn [List.length]. lia.
Qed.

Lemma len_ok : forall h H hpre ns, heap_wf h -> list_ok h H hpre ns -> dl_list_len off h H = Ok (N.of_nat (List.length ns)).
Proof.
  intros h H hpre ns W HL. pose proof (list_short _ _ _ _ W HL) as HS. destruct HL as [HR _]. pose proof HR as [R1 [R2 [R3 [R4 R5]]]].
  unfold dl_list_len. rewrite (get_next _ _ _ _ _ _ R2 R1 R3). cbn [obind]. inversion R5; subst. rewrite (len_seg ns h H H); auto.
Qed.

Lemma bufs_app : forall a b, bufs (a ++ b) = bufs a ++ bufs b.
Proof. intros. unfold bufs. apply flat_map_app. Qed.

Lemma list_frame : forall h h' H hpre ns, (forall a, In a (H :: map fst ns ++ bufs ns) -> hp_cell h' a = hp_cell h a) ->
  list_ok h H hpre ns -> list_ok h' H hpre ns.
Proof.
  intros h h' H hpre ns Hf [HR [L2 [L3 [L4 [L5 L6]]]]]. split; [|split; [exact L2|split; [exact L3|split; [exact L4|split; [exact L5|]]]]].
  - eapply ring_other; [|exact HR]. intros a Ha. apply Hf. destruct Ha as [<-|Ha]; [left; reflexivity|right; apply in_or_app; left; exact Ha].
  - intros a Ha. destruct (L6 a Ha) as [b Hb]. exists b. rewrite Hf; [exact Hb|]. right. apply in_or_app. right. exact Ha.
Qed.

Lemma NoDup_insert : forall (a b : list N) x c, NoDup (a ++ b) -> NoDup (x :: c) -> (forall y, In y (x :: c) -> ~ In y (a ++ b)) -> NoDup ((a ++ [x]) ++ b ++ c).
Proof.
  intros a b x c H1 H2 H3. rewrite <- app_assoc. cbn [app]. inversion H2 as [|? ? X1 X2]; subst.
  assert (K : NoDup ((a ++ b) ++ c)).
  { clear X1. assert (H3' : forall y, In y c -> ~ In y (a ++ b)) by (intros y Hy; apply H3; right; exact Hy). clear H2 H3.
    induction c as [|y c IH]; [rewrite app_nil_r; exact H1|]. inversion X2; subst. apply NoDup_Add with (a := y) (l := (a ++ b) ++ c).
    - apply Add_app.
    - split; [apply IH; auto; intros z Hz; apply H3'; right; exact Hz|]. intros Hin. apply in_app_iff in Hin. destruct Hin as [Hin|Hin]; [exact (H3' y (or_introl eq_refl) Hin)|contradiction]. }
  rewrite <- app_assoc in K. apply NoDup_Add with (a := x) (l := a ++ b ++ c); [apply Add_app|]. split; [exact K|].
  intros Hin. rewrite app_assoc in Hin. apply in_app_iff in Hin. destruct Hin as [Hin|Hin]; [exact (H3 x (or_introl eq_refl) Hin)|contradiction].
Qed.

Lemma add_ok : forall h H hpre ns it ipre n p e,
  list_ok h H hpre ns -> it <> 0 -> payload ipre -> fields_ok ipre -> hp_cell h it = node ipre n p e ->
  NoDup (it :: own owned ipre) -> (forall a, In a (it :: own owned ipre) -> ~ In a (H :: map fst ns ++ bufs ns)) ->
  (forall a, In a (own owned ipre) -> is_live h a) ->
  exists h', dl_list_add_tail off h H it it = Ok h' /\ list_ok h' H hpre (ns ++ [(it, ipre)]) /\
    hp_next h' = hp_next h /\ hp_oom h' = hp_oom h /\
    (forall a, ~ In a (H :: it :: map fst ns) -> hp_cell h' a = hp_cell h a).
Proof.
  intros h H hpre ns it ipre n p e [HR [L2 [L3 [L4 [L5 L6]]]]] I0 Ip If Ic Nd Dis Lv.
  destruct (add_tail_ring h H hpre ns it ipre n p e) as [h' [F1 [F2 [F3 [F4 F5]]]]]; auto.
  { intros Hin. apply (Dis it (or_introl eq_refl)). destruct Hin as [<-|Hin]; [left; reflexivity|right; apply in_or_app; left; exact Hin]. }
  exists h'. split; [exact F1|]. split; [|auto]. split; [exact F2|]. split; [apply Forall_app; split; [exact L2|constructor; [exact If|constructor]]|].
  split; [exact L3|]. split; [exact L4|].
  assert (Bn : bufs (ns ++ [(it, ipre)]) = bufs ns ++ own owned ipre).
  { rewrite bufs_app. unfold bufs at 2. cbn [flat_map snd]. rewrite app_nil_r. reflexivity. }
  rewrite Bn, map_app. cbn [map fst]. split.
  - inversion L5 as [|? ? N1 N2]; subst. constructor.
    + intros Hin. rewrite !in_app_iff in Hin. cbn [In] in Hin.
      destruct Hin as [[Hin|[Hin|[]]]|[Hin|Hin]].
      * apply N1. apply in_or_app. left. exact Hin.
      * apply (Dis it (or_introl eq_refl)). left. congruence.
      * apply N1. apply in_or_app. right. exact Hin.
      * apply (Dis H (or_intror Hin)). left. reflexivity.
    + apply NoDup_insert; [exact N2|exact Nd|]. intros y Hy Hin. apply (Dis y Hy). right. exact Hin.
  - intros a Ha. apply in_app_iff in Ha.
    assert (Hni : ~ In a (H :: it :: map fst ns)).
    { destruct Ha as [Ha|Ha].
      - intros [<-|[<-|Hin]].
        + inversion L5 as [|? ? N1 N2]; subst. apply N1. apply in_or_app. right. exact Ha.
        + apply (Dis it (or_introl eq_refl)). right. apply in_or_app. right. exact Ha.
        + inversion L5 as [|? ? N1 N2]; subst. clear -N2 Ha Hin. apply in_split in Hin. destruct Hin as [u [v E]]. rewrite E in N2. rewrite <- app_assoc in N2. cbn [app] in N2.
          apply NoDup_remove_2 in N2. apply N2. apply in_or_app. right. apply in_or_app. right. exact Ha.
      - intros [<-|[<-|Hin]].
        + apply (Dis H (or_intror Ha)). left. reflexivity.
        + inversion Nd; subst. contradiction.
        + apply (Dis a (or_intror Ha)). right. apply in_or_app. left. exact Hin. }
    rewrite is_live_iff, F5 by exact Hni. destruct Ha as [Ha|Ha]; [exact (L6 a Ha)|exact (Lv a Ha)].
Qed.
End Links.
