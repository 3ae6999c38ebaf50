(** Proofs about the memory of the command sign-cert: the caller's arrays beside
    other blocks in use. *)
From Coq Require Import Permutation.
From Verif Require Import Base PBase MOs MBase64 MSerialize MVoucher MCrypto MRequest MHeap MArray MVoucherHeap MConfig MHandlers MLog MSignCert SBase64 SHeap SArray SConfig SVoucher SRequest SHandlers SPledge SLog SSignCert
  PBase64 PHeap PArray PBlocks PConfig PConfigMore PCertFiles POwn PAcquire PAcquire2 PRequest PRequest2 PRequest3 PRequest4 PRequest5 PRequest6 PRequest7 PMasa PRegistrar PPledge PPledge2 PPledge3 PLog PSignCert2.
Open Scope N_scope.

Definition slot : Type := (N * N * Z)%type.
Definition slot_owned (s : slot) : owned * list N := let '(p, b, _) := s in (OArr p, if b =? 0 then [p] else [p; b]).
Definition slot_cell (h : heap) (s : slot) : Prop := let '(p, b, z) := s in p <> 0 /\ hp_cell h p = Live (Struct [P b; I z]).

Section Beside.
(** Everything else that was added. *)
Variable R : list (owned * list N).
(** *** Several arrays of the caller *)
Definition places (l : list slot) : list N := oprint (map slot_owned l ++ R).
Definition arrs (h0 h : heap) (l : list slot) : Prop :=
  ext h0 h /\ st (hp_next h0) h (map slot_owned l ++ R) /\ Forall (slot_cell h) l.

Lemma cells_inv : forall h p b z l, Forall (slot_cell h) ((p, b, z) :: l) -> p <> 0 /\ hp_cell h p = Live (Struct [P b; I z]) /\ Forall (slot_cell h) l.
Proof. intros h p b z l F. inversion F as [|? ? H F2]; subst. destruct H as [H1 H2]. auto. Qed.

Lemma arrs_perm : forall h0 h l l', Permutation l l' -> arrs h0 h l -> arrs h0 h l'.
Proof.
  intros h0 h l l' Pm (E & S & F). split; [exact E|]. split; [eapply st_perm; [|exact S]; apply Permutation_app_tail, Permutation_map; exact Pm|]. eapply Permutation_Forall; eassumption.
Qed.
Lemma arrs_wf : forall h0 h l, arrs h0 h l -> heap_wf h.
Proof. intros h0 h l ((W & _) & _). exact W. Qed.
Lemma places_in : forall l p b z, In (p, b, z) l -> In p (places l) /\ (b <> 0 -> In b (places l)).
Proof.
  intros l p b z H. assert (Q : In (slot_owned (p, b, z)) (map slot_owned l ++ R)) by (apply in_or_app; left; apply in_map; exact H). split.
  - eapply oprint_in; [exact Q|]. cbn [slot_owned snd]. destruct (b =? 0); left; reflexivity.
  - intros B. eapply oprint_in; [exact Q|]. cbn [slot_owned snd]. rewrite (proj2 (N.eqb_neq _ _) B). right. left. reflexivity.
Qed.
Lemma places_p : forall l p b z, In (p, b, z) l -> In p (places l).
Proof. intros l p b z H. exact (proj1 (places_in _ _ _ _ H)). Qed.
Lemma places_b : forall l p b z, In (p, b, z) l -> b <> 0 -> In b (places l).
Proof. intros l p b z H. exact (proj2 (places_in _ _ _ _ H)). Qed.
Lemma places_cons : forall s l, places (s :: l) = snd (slot_owned s) ++ places l.
Proof. reflexivity. Qed.
Lemma slot_fst : forall p b z, snd (slot_owned (p, b, z)) = p :: (if b =? 0 then [] else [b]).
Proof. intros p b z. cbn [slot_owned snd]. destruct (b =? 0); reflexivity. Qed.
Lemma arrs_places : forall h0 h l a, arrs h0 h l -> In a (places l) -> hp_next h0 <= a < hp_next h /\ a <> 0.
Proof.
  intros h0 h l a (E & S & _) H. split; [split; [apply S; exact H|exact (st_low _ _ _ _ S H)]|]. destruct (st_live _ _ _ _ S H) as [x Hx]. pose proof (st_wf _ _ _ S) as (_ & W & _). congruence.
Qed.
Lemma arrs_plenty : forall h0 h l, arrs h0 h l -> plenty h0 -> plenty h.
Proof. intros h0 h l (E & _) PL. eapply ext_plenty; eassumption. Qed.
Lemma arrs_buf : forall h0 h p b z l, arrs h0 h ((p, b, z) :: l) -> b <> 0 -> exists d, hp_cell h b = Live (Buf d).
Proof.
  intros h0 h p b z l (_ & (_ & Ow & _) & F) B. inversion Ow as [|? ? O1 _]; subst. destruct (cells_inv _ _ _ _ _ F) as (P0 & C1 & _). cbn [slot_owned fst snd] in O1. rewrite (proj2 (N.eqb_neq _ _) B) in O1.
  destruct O1 as [[_ Q]|(b' & n & _ & C & [[_ Q]|(_ & _ & D & Q)])]; try discriminate. injection Q as <-. exact D.
Qed.

(** What is acquired and given back leaves the arrays. *)
Lemma arrs_ext : forall h0 h h' l, arrs h0 h l -> ext h h' -> st (hp_next h) h' [] -> arrs h0 h' l.
Proof.
  intros h0 h h' l (E & S & F) X S'. split; [eapply ext_trans; eassumption|]. split; [apply (st_acquire _ _ _ _ _ S X S')|].
  rewrite Forall_forall in *. intros [[p b] z] H. pose proof (F _ H) as [P0 C]. split; [exact P0|]. rewrite <- C. apply X. assert (In p (oprint (map slot_owned l ++ R))) by (eapply places_p; exact H). eapply st_low; eassumption.
Qed.

(** Rewriting the cells of the first array. *)
Lemma arrs_put : forall h0 h p b z l z', arrs h0 h ((p, b, z) :: l) -> arrs h0 (MHeap.put h p (Live (Struct [P b; I z']))) ((p, b, z') :: l) /\ forall a, a <> p -> hp_cell (MHeap.put h p (Live (Struct [P b; I z']))) a = hp_cell h a.
Proof.
  intros h0 h p b z l z' A. pose proof A as ((W & Hn & K & Ho) & S & F). destruct (cells_inv _ _ _ _ _ F) as (P0 & C & F2). pose proof S as (O & Ow & ND & Bl). cbn [map] in *.
  assert (Lp : hp_next h0 <= p) by (eapply (arrs_places _ _ _ p A), places_p; left; reflexivity).
  set (h' := MHeap.put h p (Live (Struct [P b; I z']))). assert (X : forall a, a <> p -> hp_cell h' a = hp_cell h a) by (intros a Ha; apply put_other; exact Ha). split; [|exact X].
  assert (NI : ~ In p (places l)). { change (NoDup (snd (slot_owned (p, b, z)) ++ places l)) in ND. intros Q. eapply disjoint_of_NoDup; [exact ND| |exact Q]. rewrite slot_fst. left. reflexivity. }
  assert (BP : b <> 0 -> b <> p). { intros B ->. change (NoDup (snd (slot_owned (p, p, z)) ++ places l)) in ND. rewrite slot_fst, (proj2 (N.eqb_neq _ _) B) in ND. inversion ND as [|? ? Q _]. apply Q. left. reflexivity. }
  assert (W' : heap_wf h') by (eapply wf_write; [exact W|exact P0|exact C|auto]). split; [split; [exact W'|]; split; [exact Hn|]; split; [intros a Ha; rewrite X by lia; apply K; exact Ha|exact Ho]|]. split.
  - split; [|split; [|split; [exact ND|exact Bl]]].
    + apply only_write; [exact O|]. eexists. exact C.
    + inversion Ow as [|? ? O1 O2]; subst. constructor.
      * cbn [slot_owned fst snd] in *. right. exists b, z'. split; [exact P0|]. split; [apply put_same|]. destruct (N.eqb_spec b 0) as [B|B]; [left; auto|]. right. split; [exact B|]. split; [apply BP; exact B|]. split; [|reflexivity]. destruct (arrs_buf _ _ _ _ _ _ A B) as [d D]. exists d. rewrite X by (apply BP; exact B). exact D.
      * rewrite Forall_forall in *. intros e He. eapply owns_frame; [apply O2; exact He|]. intros a Ha. apply X. intros ->. apply NI. eapply oprint_in; eassumption.
  - constructor; [split; [exact P0|apply put_same]|]. rewrite Forall_forall in *. intros [[q c] y] H. destruct (F2 _ H) as [Q0 Cq]. split; [exact Q0|]. rewrite X; [exact Cq|]. intros ->. apply NI. eapply places_p. exact H.
Qed.

(** Giving an empty array a new content. *)
Lemma arrs_attach : forall h0 h1 h p z l b d z', arrs h0 h1 ((p, 0, z) :: l) -> ext h1 h -> st (hp_next h1) h [(OBuf b, [b])] -> b <> 0 -> hp_cell h b = Live (Buf d) ->
  arrs h0 (MHeap.put h p (Live (Struct [P b; I z']))) ((p, b, z') :: l) /\ forall a, a <> p -> hp_cell (MHeap.put h p (Live (Struct [P b; I z']))) a = hp_cell h a.
Proof.
  intros h0 h1 h p z l b d z' A X1 S1 B0 D. pose proof A as (E & S & F). pose proof (st_acquire _ _ _ _ _ S X1 S1) as S2. pose proof (ext_trans _ _ _ E X1) as E2. destruct E2 as (W & Hn & K & Ho).
  destruct (cells_inv _ _ _ _ _ F) as (P0 & C & F2). assert (Lp : hp_next h0 <= p < hp_next h1) by (eapply (arrs_places _ _ _ p A), places_p; left; reflexivity).
  assert (C1 : hp_cell h p = Live (Struct [P 0; I z])) by (rewrite <- C; apply X1; lia). pose proof S2 as (O & Ow & ND & Bl). cbn [map app] in *.
  set (h' := MHeap.put h p (Live (Struct [P b; I z']))). assert (X : forall a, a <> p -> hp_cell h' a = hp_cell h a) by (intros a Ha; apply put_other; exact Ha). split; [|exact X].
  change (NoDup (b :: p :: places l)) in ND. inversion ND as [|? ? N1 N2]; subst. inversion N2 as [|? ? N3 N4]; subst.
  assert (W' : heap_wf h') by (eapply wf_write; [exact W|exact P0|exact C1|auto]). split; [split; [exact W'|]; split; [exact Hn|]; split; [intros a Ha; rewrite X by lia; apply K; exact Ha|exact Ho]|]. split.
  - unfold st. replace (oprint (map slot_owned ((p, b, z') :: l) ++ R)) with (p :: b :: places l) by (cbn [map slot_owned]; rewrite (proj2 (N.eqb_neq _ _) B0); reflexivity). split; [|split; [|split]].
    + apply only_write; [|eexists; exact C1]. eapply only_iff; [exact O|]. intros a _. change (In a (b :: p :: places l) <-> In a (p :: b :: places l)). cbn [In]. tauto.
    + inversion Ow as [|? ? _ Ow2]; subst. inversion Ow2 as [|? ? _ O2]; subst. cbn [map]. constructor.
      * cbn [slot_owned fst snd]. rewrite (proj2 (N.eqb_neq _ _) B0). right. exists b, z'. split; [exact P0|]. split; [apply put_same|]. right. split; [exact B0|]. assert (b <> p) by (intros ->; apply N1; left; reflexivity). split; [assumption|]. split; [|reflexivity]. exists d. rewrite X by assumption. exact D.
      * rewrite Forall_forall in *. intros e He. eapply owns_frame; [apply O2; exact He|]. intros a Ha. apply X. intros ->. apply N3. eapply oprint_in; eassumption.
    + constructor; [|constructor; [|exact N4]]; [intros [Q|Q]; [apply N1; left; congruence|apply N3; exact Q]|]. intros Q. apply N1. right. exact Q.
    + intros a Ha. apply Bl. change (In a (b :: p :: places l)). cbn [In] in *. tauto.
  - constructor; [split; [exact P0|apply put_same]|]. rewrite Forall_forall in *. intros [[q c] y] H. destruct (F2 _ H) as [Q0 Cq]. split; [exact Q0|]. assert (In q (places l)) by (eapply places_p; exact H). rewrite X by (intros ->; contradiction). rewrite <- Cq. apply X1.
    eapply (arrs_places _ _ _ q A). rewrite places_cons. apply in_or_app. right. assumption.
Qed.

(** array.c 144-152 on the first array. *)
Lemma arrs_content : forall h0 h p b z l, arrs h0 h ((p, b, z) :: l) ->
  exists h', h_free_binary_array_content h (p, 0%nat) = Ok h' /\ arrs h0 h' ((p, 0, 0%Z) :: l) /\ (forall a, In a (places l) -> hp_cell h' a = hp_cell h a) /\ hp_next h' = hp_next h.
Proof.
  intros h0 h p b z l A. pose proof A as ((W & Hn & K & Ho) & S & F). destruct (cells_inv _ _ _ _ _ F) as (P0 & C & F2). unfold h_free_binary_array_content. cbn [fst snd]. rewrite (proj2 (N.eqb_neq _ _) P0).
  rewrite (get_ptr_at h p [P b; I z] 0%nat b P0 C eq_refl). cbn [obind]. pose proof S as (O & Ow & ND & Bl). cbn [map] in ND. change (NoDup (snd (slot_owned (p, b, z)) ++ places l)) in ND. rewrite slot_fst in ND.
  assert (NI : ~ In p (places l)) by (intros Q; eapply disjoint_of_NoDup; [exact ND|left; reflexivity|exact Q]).
  destruct (N.eqb_spec b 0) as [B|B].
  - subst b. cbn [obind]. erewrite set_field_at; [|exact P0|exact C|reflexivity]. cbn [set_nthv Nat.add]. destruct (arrs_put h0 h p 0 z l 0%Z A) as [A' X]. eexists. split; [reflexivity|]. split; [exact A'|]. split; [|reflexivity]. intros a Ha. apply X. intros ->. contradiction.
  - destruct (arrs_buf _ _ _ _ _ _ A B) as [d D]. assert (Lb : is_live h b) by (eexists; exact D). destruct (free_live h b W Lb) as [E1 W1]. rewrite E1. cbn [obind].
    assert (BP : b <> p) by (intros ->; congruence). set (h1 := put h b Freed). assert (C1 : hp_cell h1 p = Live (Struct [P b; I z])) by (unfold h1; rewrite put_other by congruence; exact C).
    erewrite set_field_at; [|exact P0|exact C1|reflexivity]. cbn [obind set_nthv]. erewrite set_field_at; [|exact P0|apply put_same|reflexivity]. cbn [obind set_nthv Nat.add].
    set (h2 := put h1 p (Live (Struct [P 0; I z]))). eexists. split; [reflexivity|].
    assert (NB : ~ In b (places l)) by (intros Q; eapply disjoint_of_NoDup; [exact ND|right; left; reflexivity|exact Q]).
    assert (LB : hp_next h0 <= b) by (eapply (arrs_places _ _ _ b A), places_b; [left; reflexivity|exact B]). assert (LP : hp_next h0 <= p) by (eapply (arrs_places _ _ _ p A), places_p; left; reflexivity).
    assert (X : forall a, a <> p -> a <> b -> hp_cell h2 a = hp_cell h a) by (intros a Q1 Q2; unfold h2, h1; rewrite !put_other by assumption; reflexivity).
    assert (A2 : arrs h0 h2 ((p, 0, z) :: l)).
    { assert (W2 : heap_wf h2) by (eapply wf_write; [exact W1|exact P0|exact C1|auto]). split; [split; [exact W2|]; split; [exact Hn|]; split; [intros a Ha; rewrite X by lia; apply K; exact Ha|exact Ho]|]. split.
      - unfold st. change (oprint (map slot_owned ((p, 0, z) :: l) ++ R)) with (p :: places l). split; [|split; [|split]].
        + eapply only_iff; [apply only_write; [apply only_freed; [exact O|exact Lb]|eexists; exact C1]|]. intros a _. cbn beta. change (oprint (map slot_owned ((p, b, z) :: l) ++ R)) with (snd (slot_owned (p, b, z)) ++ places l). rewrite slot_fst, (proj2 (N.eqb_neq _ _) B). cbn [app In].
          split; [intros [[Q|[Q|Q]] Q2]; auto; congruence|]. intros [<-|Q]; [split; [left; reflexivity|congruence]|]. split; [right; right; exact Q|]. intros ->. contradiction.
        + inversion Ow as [|? ? _ O2]; subst. cbn [map]. constructor.
          * cbn [slot_owned fst snd]. right. exists 0, z. split; [exact P0|]. split; [apply put_same|]. left. auto.
          * rewrite Forall_forall in *. intros e He. eapply owns_frame; [apply O2; exact He|]. intros a Ha. assert (In a (places l)) by (eapply oprint_in; eassumption). apply X; intros ->; contradiction.
        + constructor; [exact NI|]. inversion ND as [|? ? _ N2]; subst. inversion N2; subst. assumption.
        + intros a [<-|Ha]; [exact LP|]. apply Bl. change (oprint (map slot_owned ((p, b, z) :: l) ++ R)) with (snd (slot_owned (p, b, z)) ++ places l). apply in_or_app. right. exact Ha.
      - constructor; [split; [exact P0|apply put_same]|]. rewrite Forall_forall in *. intros [[q c] y] H. destruct (F2 _ H) as [Q0 Cq]. split; [exact Q0|]. assert (In q (places l)) by (eapply places_p; exact H). rewrite X; [exact Cq| |]; intros ->; contradiction. }
    destruct (arrs_put h0 h2 p 0 z l 0%Z A2) as [A3 X3]. split; [exact A3|]. split; [|reflexivity]. intros a Ha. rewrite X3 by (intros ->; contradiction). apply X; intros ->; contradiction.
Qed.

(** The end of an empty local array. *)
Lemma arrs_drop : forall h0 h p z l, arrs h0 h ((p, 0, z) :: l) -> exists h', sys_free h p = Ok h' /\ arrs h0 h' l /\ forall a, a <> p -> hp_cell h' a = hp_cell h a.
Proof.
  intros h0 h p z l A. pose proof A as (E & S & F). destruct (cells_inv _ _ _ _ _ F) as (P0 & C & F2). assert (Lp : is_live h p) by (eexists; exact C). pose proof (proj1 E) as W. destruct (free_live h p W Lp) as [E1 W1]. exists (put h p Freed). split; [exact E1|].
  assert (S' : st (hp_next h0) h ((OBuf p, [p]) :: map slot_owned l ++ R)). { destruct S as (O & Ow & ND & Bl). split; [exact O|]. split; [|split; [exact ND|exact Bl]]. inversion Ow as [|? ? _ O2]; subst. constructor; [|exact O2]. right. auto. }
  destruct (st_free _ _ _ _ _ S') as (h' & E2 & S2 & Rl & N2 & O2). cbn [free_owned] in E2. rewrite E1 in E2. injection E2 as <-. split; [|intros a Ha; apply put_other; exact Ha].
  assert (NI : ~ In p (places l)). { destruct S' as (_ & _ & ND & _). intros Q. eapply (disjoint_of_NoDup [p] (places l)); [exact ND|left; reflexivity|exact Q]. }
  split; [|split; [exact S2|]].
  - eapply (part_ext h0 h _ [(OBuf p, [p])] (map slot_owned l ++ R)); [exact E|exact S'|exact S2|exact Rl|exact N2|exact O2].
  - rewrite Forall_forall in *. intros [[q c] y] H. destruct (F2 _ H) as [Q0 Cq]. split; [exact Q0|]. rewrite put_other; [exact Cq|]. intros ->. apply NI. eapply places_p. exact H.
Qed.

(** A new empty local array. *)
Lemma arrs_local : forall h0 h l, arrs h0 h l -> exists h', local h (Struct [P 0; I 0]) = (hp_next h, h') /\ arrs h0 h' ((hp_next h, 0, 0%Z) :: l) /\ (forall a, a <> hp_next h -> hp_cell h' a = hp_cell h a) /\ hp_next h' = hp_next h + 1.
Proof.
  intros h0 h l A. pose proof A as (E & S & F). pose proof (proj1 E) as W. unfold local. set (h' := mk_heap _ _ _). exists h'. split; [reflexivity|].
  assert (X : forall a, a <> hp_next h -> hp_cell h' a = hp_cell h a) by (intros a Ha; cbn [h' hp_cell]; rewrite (proj2 (N.eqb_neq _ _) Ha); reflexivity).
  assert (Y : hp_cell h' (hp_next h) = Live (Struct [P 0; I 0])) by (cbn [h' hp_cell]; rewrite N.eqb_refl; reflexivity).
  assert (W' : heap_wf h'). { destruct W as (W1 & W2 & W3). split; [cbn; lia|]. split; [rewrite X by lia; exact W2|]. intros a Ha. cbn [h' hp_next] in Ha. rewrite X by lia. apply W3. lia. }
  assert (P0 : hp_next h <> 0) by (destruct W; lia). assert (X1 : ext h h') by (split; [exact W'|]; split; [cbn; lia|]; split; [intros a Ha; apply X; lia|reflexivity]).
  assert (S1 : st (hp_next h) h' [(OArr (hp_next h), [hp_next h])]).
  { apply st_one; [|right; exists 0, 0%Z; split; [exact P0|]; split; [exact Y|left; auto]|constructor; [intros []|constructor]|intros a [<-|[]]; lia].
    split; [exact W'|]. split; [cbn; lia|]. intros a Ha. split; [|intros [<-|[]]; eexists; exact Y]. intros [x Hx]. destruct (N.eq_dec a (hp_next h)) as [->|Na]; [left; reflexivity|]. rewrite X in Hx by exact Na. destruct W as (_ & _ & W3). rewrite W3 in Hx by exact Ha. discriminate. }
  split; [|split; [exact X|reflexivity]]. split; [eapply ext_trans; eassumption|]. split; [apply (st_acquire _ _ _ _ _ S X1 S1)|]. constructor; [split; [exact P0|exact Y]|].
  rewrite Forall_forall in *. intros [[q c] y] H. destruct (F _ H) as [Q0 Cq]. split; [exact Q0|]. rewrite <- Cq. apply X. assert (In q (places l)) by (eapply places_p; exact H). pose proof (arrs_places _ _ _ _ A H0). lia.
Qed.

Lemma out_step : forall h0 h p l d z b h1, plenty h0 -> arrs h0 h ((p, 0, 0%Z) :: l) -> der_out h d = (z, b, h1) ->
  exists ha hb, set_field h1 p 0 (P b) = Ok ha /\ set_field ha p 1 (I (to_size z)) = Ok hb /\ arrs h0 hb ((p, b, to_size z) :: l) /\ (forall a, In a (places l) -> hp_cell hb a = hp_cell h a) /\
    match d with Some d => b <> 0 /\ z = Z.of_N (blen d) /\ hp_cell hb b = Live (Buf d) | None => b = 0 /\ z = (-1)%Z end.
Proof.
  intros h0 h p l d z b h1 PL A E. pose proof (arrs_wf _ _ _ A) as W. pose proof (arrs_plenty _ _ _ A PL) as PL1. pose proof A as (_ & S & F). destruct (cells_inv _ _ _ _ _ F) as (P0 & C & _).
  assert (NI : ~ In p (places l)). { destruct S as (_ & _ & ND & _). intros Q. eapply (disjoint_of_NoDup [p] (places l)); [exact ND|left; reflexivity|exact Q]. }
  destruct d as [d|]; cbn [der_out] in E.
  - destruct (plenty_alloc h (Buf d) W PL1) as (a & h' & Ea & A0 & Aa & Hn & Ca & Cx & Ex & On). rewrite Ea in E. rewrite (proj2 (N.eqb_neq _ _) A0) in E. injection E as <- <- <-.
    assert (S1 : st (hp_next h) h' [(OBuf a, [a])]).
    { apply st_one; [eapply only_iff; [exact On|]; intros y _; cbn [In]; split; [auto|]; intros [<-|[]]; reflexivity|right; split; [exact A0|]; split; [eexists; exact Ca|reflexivity]|constructor; [intros []|constructor]|intros y [<-|[]]; lia]. }
    assert (Lp : p < hp_next h) by (eapply (arrs_places _ _ _ p A), places_p; left; reflexivity). assert (Cp : hp_cell h' p = Live (Struct [P 0; I 0])) by (rewrite Cx by lia; exact C).
    erewrite set_field_at; [|exact P0|exact Cp|reflexivity]. cbn [set_nthv]. destruct (arrs_attach h0 h h' p 0%Z l a d 0%Z A Ex S1 A0 Ca) as [A1 X1].
    destruct (arrs_put _ _ _ _ _ _ (to_size (Z.of_N (blen d))) A1) as [A2 X2]. eexists. eexists. split; [reflexivity|]. erewrite set_field_at; [|exact P0|apply put_same|reflexivity]. cbn [set_nthv]. split; [reflexivity|]. split; [exact A2|].
    assert (AP : a <> p) by lia. split; [|split; [exact A0|]; split; [reflexivity|rewrite X2, X1 by exact AP; exact Ca]].
    intros y Hy. assert (y <> p) by (intros ->; contradiction). rewrite X2, X1 by assumption. apply Cx. assert (Q : In y (places ((p, 0, 0%Z) :: l))) by (rewrite places_cons; apply in_or_app; right; exact Hy). pose proof (arrs_places _ _ _ _ A Q). lia.
  - injection E as <- <- <-. erewrite set_field_at; [|exact P0|exact C|reflexivity]. cbn [set_nthv]. destruct (arrs_put h0 h p 0 0%Z l 0%Z A) as [A1 X1].
    destruct (arrs_put _ _ _ _ _ _ (to_size (-1)) A1) as [A2 X2]. eexists. eexists. split; [reflexivity|]. erewrite set_field_at; [|exact P0|apply put_same|reflexivity]. cbn [set_nthv]. split; [reflexivity|]. split; [exact A2|]. split; [|auto].
    intros y Hy. assert (y <> p) by (intros ->; contradiction). rewrite X2, X1 by assumption. reflexivity.
Qed.
Lemma enc_step : forall h0 h p b z l d, plenty h0 -> arrs h0 h ((p, b, z) :: l) -> made h d b z -> (forall d', d = Some d' -> bytes_ok d') ->
  exists h', encode_array h p = Ok (match d with Some d => if blen d <? SIZE_MAX / 4 then Some (rfc_encode d) else None | None => None end, h') /\ arrs h0 h' ((p, b, z) :: l) /\
    (forall a, In a (places ((p, b, z) :: l)) -> hp_cell h' a = hp_cell h a).
Proof.
  intros h0 h p b z l d PL A M BO. pose proof A as (_ & _ & F). destruct (cells_inv _ _ _ _ _ F) as (P0 & C & _). unfold encode_array. rewrite (get_int_at h p [P b; I z] 1%nat z P0 C eq_refl). cbn [obind].
  destruct d as [d|].
  - destruct M as (B & -> & Cb). rewrite N2Z.id. pose proof (N.leb_antisym (blen d) (SIZE_MAX / 4)) as Q. rewrite Q. destruct (blen d <? SIZE_MAX / 4) eqn:L; cbn [negb]; [|exists h; auto].
    destruct (encode_step h p d (arrs_wf _ _ _ A) (arrs_plenty _ _ _ A PL) (BO _ eq_refl)) as (h' & E & X & S).
    { rewrite (barray_cells h p b d _ P0 B C Cb). unfold ba_of. rewrite N2Z.id. reflexivity. }
    rewrite L in E. exists h'. split; [exact E|]. split; [eapply arrs_ext; eassumption|]. intros a Ha. apply X. eapply arrs_places; eassumption.
  - destruct M as [_ ->]. exists h. split; [reflexivity|]. auto.
Qed.
Lemma err_run : forall h0 h oc bc zc ok bk zk pn bp zp, arrs h0 h [(oc, bc, zc); (ok, bk, zk); (pn, bp, zp)] ->
  exists h', sign_err oc ok pn h = Ok ((-1)%Z, h') /\ arrs h0 h' [(oc, 0, 0%Z); (ok, 0, 0%Z)].
Proof.
  intros h0 h oc bc zc ok bk zk pn bp zp A. unfold sign_err. destruct (arrs_content _ _ _ _ _ _ A) as (h1 & E1 & A1 & _). rewrite E1. cbn [obind].
  assert (B1 : arrs h0 h1 [(ok, bk, zk); (pn, bp, zp); (oc, 0, 0%Z)]) by (eapply arrs_perm; [|exact A1]; apply (Permutation_cons_append [(ok, bk, zk); (pn, bp, zp)])).
  destruct (arrs_content _ _ _ _ _ _ B1) as (h2 & E2 & A2 & _). rewrite E2. cbn [obind].
  assert (B2 : arrs h0 h2 [(pn, bp, zp); (oc, 0, 0%Z); (ok, 0, 0%Z)]) by (eapply arrs_perm; [|exact A2]; apply (Permutation_cons_append [(pn, bp, zp); (oc, 0, 0%Z)])).
  destruct (arrs_content _ _ _ _ _ _ B2) as (h3 & E3 & A3 & _). rewrite E3. cbn [obind]. destruct (arrs_drop _ _ _ _ _ A3) as (h4 & E4 & A4 & _). rewrite E4. cbn [obind]. exists h4. auto.
Qed.

End Beside.
