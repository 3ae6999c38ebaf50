(** Requests that share one slot: what a request does with its own, and with the
    slot. *)
From Coq Require Import Permutation.
From Verif Require Import Base PBase MOs MBase64 MSerialize MVoucher MCrypto MRequest MHeap MArray MVoucherHeap MConfig MHandlers MConcurrent MConcurrentReg SBase64 SHeap SArray SConfig SVoucher SRequest SHandlers SConcurrentReg
  PBase64 PHeap PArray PBlocks PConfig PConfigMore PCertFiles POwn PAcquire PAcquire2 PMasa PConcurrent PConcurrentReg PConcurrentReg2.
Open Scope N_scope.

Definition shared (dl : bytes) (q : N) : item := IArr q (Some (ba_of dl)).
Lemma shared_cell h dl q F : holds h (shared dl q) F -> q <> 0 /\ In q F.
Proof.
  intros [[[-> ->]|(a & n & Q0 & C & Cs)] B]; [discriminate|]. split; [exact Q0|]. destruct Cs as [[_ ->]|(_ & _ & _ & ->)]; left; reflexivity.
Qed.
Lemma freed_array h q : q <> 0 -> hp_cell h q = Freed -> exists k, free_owned h (OArr q) = UB k.
Proof. intros Q0 C. cbn [free_owned]. unfold h_free_binary_array, get_ptr, get_field, load. rewrite !(proj2 (N.eqb_neq _ _) Q0), C. eexists. reflexivity. Qed.
Lemma freed_cb h q : q <> 0 -> hp_cell h q = Freed -> exists k, voucher_req_cb h q = UB k.
Proof. intros Q0 C. unfold voucher_req_cb, h_barray, get_ptr, get_field, load. rewrite !(proj2 (N.eqb_neq _ _) Q0), C. eexists. reflexivity. Qed.

Section Coop.
Variables (h0 : heap) (dl : bytes) (good : Z -> bytes -> Prop) (bad : Prop) (R : nat).
Let base := hp_next h0.

Fixpoint coop (n t : nat) (p : prog) (l : list (item * list N)) : Prop :=
  match p with
  | Ret s r => (R <= t)%nat /\ iprint l = [] /\ ~ bad /\ good s r
  | Step f =>
    match n with
    | O => False
    | S n => forall h ld, ext h0 h -> own base h l ->
        if Nat.eqb t 2 then exists h' q p' F, f h ld = Ok (h', q, p') /\ moved base h l h' ((shared dl q, F) :: l) /\ (forall a, In a F -> hp_next h <= a) /\ coop n 3 p' l
        else if Nat.eqb t 10 then
          (forall F, holds h (shared dl ld) F -> bad /\ (exists k, f h ld = UB k) \/ exists h' p' l', f h ld = Ok (h', ld, p') /\ moved base h l h' l' /\ coop n (S t) p' l') /\
          (ld <> 0 -> hp_cell h ld = Freed -> exists k, f h ld = UB k)
        else if Nat.eqb (S t) R then
          (forall F, own base h ((shared dl ld, F) :: l) -> exists h' p', f h ld = Ok (h', ld, p') /\ moved base h ((shared dl ld, F) :: l) h' l /\ hp_cell h' ld = Freed /\ coop n (S t) p' l) /\
          (ld <> 0 -> hp_cell h ld = Freed -> exists k, f h ld = UB k)
        else bad /\ (exists k, f h ld = UB k) \/ exists h' p' l', f h ld = Ok (h', ld, p') /\ moved base h l h' l' /\ coop n (S t) p' l'
    end
  end.

Lemma coop_ret n t u s r l : (t <= u)%nat -> coop n t (Ret s r) l -> coop n u (Ret s r) l.
Proof. intros L H. destruct n; cbn [coop] in *; destruct H as (H & G); split; [lia|exact G|lia|exact G]. Qed.
Lemma coop_alone n t f l : (t <> 2)%nat -> (t <> 10)%nat -> S t <> R ->
  (forall h ld, ext h0 h -> own base h l -> bad /\ (exists k, f h ld = UB k) \/ exists h' p' l', f h ld = Ok (h', ld, p') /\ moved base h l h' l' /\ coop n (S t) p' l') -> coop (S n) t (Step f) l.
Proof.
  intros T1 T2 T3 H. cbn [coop]. apply Nat.eqb_neq in T1, T2, T3. rewrite T1, T2, T3. exact H.
Qed.
Lemma coop_read n f l : (forall h ld, ext h0 h -> own base h l ->
    (forall F, holds h (shared dl ld) F -> bad /\ (exists k, f h ld = UB k) \/ exists h' p' l', f h ld = Ok (h', ld, p') /\ moved base h l h' l' /\ coop n 11 p' l') /\
    (ld <> 0 -> hp_cell h ld = Freed -> exists k, f h ld = UB k)) -> coop (S n) 10 (Step f) l.
Proof. intros H. exact H. Qed.
(** What comes after the release is private. *)
Lemma fine_coop : forall n t p l, (R <= t)%nat -> (11 <= t)%nat -> fine h0 good bad n p l -> coop n t p l.
Proof.
  induction n as [|n IH]; intros t [s r|f] l L1 L2 H; cbn [fine] in H; try contradiction; try (split; [exact L1|exact H]).
  apply coop_alone; try lia. intros h ld E O. destruct (H h ld E O) as [U|(h' & p' & l' & Q & M & G)]; [left; exact U|]. right. exists h', p', l'. split; [exact Q|]. split; [exact M|]. apply IH; [lia|lia|exact G].
Qed.
Lemma coop_release n t xs s r l : S t = R -> (10 < t)%nat -> fine h0 good bad n (clean_steps xs (Ret s r)) l -> coop (S n) t (release_steps xs s r) l.
Proof.
  intros T1 T2 H. unfold release_steps. cbn [coop]. assert (Nat.eqb t 2 = false) as -> by (apply Nat.eqb_neq; lia). assert (Nat.eqb t 10 = false) as -> by (apply Nat.eqb_neq; lia).
  assert (Nat.eqb (S t) R = true) as -> by (apply Nat.eqb_eq; exact T1). intros h ld E O. split.
  - intros F Ow. pose proof Ow as (O1 & _). inversion O1 as [|? ? O2 _]; subst. cbn [fst snd] in O2. destruct (shared_cell _ _ _ _ O2) as [L0 LF].
    destruct (moved_free base h (shared dl ld) F l (proj1 E) Ow Logic.I) as (h' & Q & M). exists h', (clean_steps xs (Ret s r)). cbn [shared ow] in Q. rewrite Q. cbn [obind]. split; [reflexivity|]. split; [exact M|]. split.
    + destruct (owns_free h (OArr ld) F (proj1 E) (holds_owns _ _ _ O2 Logic.I)) as (h2 & Q2 & [R1 _] & _). rewrite Q in Q2. injection Q2 as <-. apply R1. exact LF.
    + apply fine_coop; [lia|lia|exact H].
  - intros L0 C. destruct (freed_array h ld L0 C) as [k Q]. exists k. rewrite Q. reflexivity.
Qed.
Lemma coop_null n t p l x : (forall h, holds h x []) -> coop n t p ((x, []) :: l) -> (t <> 2)%nat -> (S t <> R)%nat -> coop n t p l.
Proof.
  intros Hx H T1 T2. assert (I : iprint ((x, []) :: l) = iprint l) by reflexivity. destruct n as [|n], p as [s r|f]; try (cbn [coop] in *; rewrite I in H; exact H); [cbn [coop] in H; contradiction|].
  cbn [coop] in *. apply Nat.eqb_neq in T1, T2. rewrite T1, T2 in *. intros h ld E (O & ND & B).
  assert (Ow : own base h ((x, []) :: l)) by (split; [constructor; [apply Hx|exact O]|]; rewrite I; auto). specialize (H h ld E Ow).
  assert (MV : forall h' l', moved base h ((x, []) :: l) h' l' -> moved base h l h' l') by (intros h' l' M; unfold moved in *; rewrite I in M; exact M).
  destruct (Nat.eqb t 10).
  - destruct H as [H1 H2]. split; [|exact H2]. intros F HF. destruct (H1 F HF) as [U|(h' & p' & l' & Q & M & G)]; [left; exact U|]. right. exists h', p', l'. auto.
  - destruct H as [U|(h' & p' & l' & Q & M & G)]; [left; exact U|]. right. exists h', p', l'. auto.
Qed.
End Coop.

Section Shared.
Variables (h0 : heap) (dl : bytes) (good : nat -> Z -> bytes -> Prop) (bad : nat -> Prop) (R : nat -> nat) (len : nat).
Hypothesis RR : forall i, (12 <= R i)%nat.
Let base := hp_next h0.

Definition inside (ts : nat -> nat) (i : nat) : Prop := (i < len)%nat /\ (3 <= ts i < R i)%nat.
Definition groups (h : heap) (ps : list prog) (ts ns : nat -> nat) (ls : nat -> list (item * list N)) : Prop :=
  ext h0 h /\ List.length ps = len /\
  (forall i p, nth_error ps i = Some p -> coop h0 dl (good i) (bad i) (R i) (ns i) (ts i) p (ls i)) /\
  (forall i, own base h (ls i)) /\
  (forall i j a, i <> j -> In a (iprint (ls i)) -> ~ In a (iprint (ls j))).
Definition slot_ok (h : heap) (ld : N) (ls : nat -> list (item * list N)) (F : list N) : Prop :=
  own base h [(shared dl ld, F)] /\ forall i a, In a F -> ~ In a (iprint (ls i)).
Definition slot_gone (h : heap) (ld : N) (ls : nat -> list (item * list N)) : Prop :=
  ld <> 0 /\ base <= ld < hp_next h /\ hp_cell h ld = Freed /\ forall i, ~ In ld (iprint (ls i)).
Definition cover (h : heap) (ls : nat -> list (item * list N)) (F : list N) : Prop :=
  forall a, base <= a -> is_live h a -> In a F \/ exists i, (i < len)%nat /\ In a (iprint (ls i)).
Definition status (b : bool) (h : heap) (ld : N) (ts : nat -> nat) (ls : nat -> list (item * list N)) : Prop :=
  if b then (forall i, ~ inside ts i) /\ cover h ls [] \/ exists F i, slot_ok h ld ls F /\ inside ts i /\ (forall j, inside ts j -> j = i) /\ cover h ls F
  else slot_gone h ld ls /\ (exists i, inside ts i) \/ exists F i j, slot_ok h ld ls F /\ inside ts i /\ inside ts j /\ i <> j.

Lemma inside_dec ts i : {inside ts i} + {~ inside ts i}.
Proof. unfold inside. destruct (lt_dec i len); [|right; tauto]. destruct (le_dec 3 (ts i)); [|right; lia]. destruct (lt_dec (ts i) (R i)); [left|right]; lia. Qed.
Lemma inside_some ts i : (exists j, j <> i /\ inside ts j) \/ forall j, j <> i -> ~ inside ts j.
Proof.
  assert (G : forall n, (exists j, j <> i /\ inside ts j) \/ forall j, (j < n)%nat -> j <> i -> ~ inside ts j).
  { induction n as [|n [IH|IH]]; [right; lia|left; exact IH|]. destruct (Nat.eq_dec n i) as [->|Ne]; [right; intros j Lj Nj; apply IH; [lia|exact Nj]|].
    destruct (inside_dec ts n) as [Q|Q]; [left; exists n; auto|]. right. intros j Lj Nj. destruct (Nat.eq_dec j n) as [->|]; [exact Q|]. apply IH; [lia|exact Nj]. }
  destruct (G len) as [Q|Q]; [left; exact Q|]. right. intros j Nj Hj. exact (Q j (proj1 Hj) Nj Hj).
Qed.
Lemma inside_same ts ts' b h ld ls : (forall j, inside ts j <-> inside ts' j) -> status b h ld ts ls -> status b h ld ts' ls.
Proof.
  intros E. unfold status. destruct b.
  - intros [[H C]|(F & i & S & H & U & C)]; [left; split; [intros i Q; apply (H i), E, Q|exact C]|]. right. exists F, i. split; [exact S|]. split; [apply E, H|]. split; [intros j Q; apply U, E, Q|exact C].
  - intros [[G [i H]]|(F & i & j & S & H & H' & Ne)]; [left; split; [exact G|exists i; apply E, H]|]. right. exists F, i, j. split; [exact S|]. split; [apply E, H|]. split; [apply E, H'|exact Ne].
Qed.

Lemma frame_other h h' lx ly m : heap_wf h -> moved base h lx h' ly -> own base h m -> (forall a, In a (iprint m) -> ~ In a (iprint lx)) -> own base h' m /\ (forall a, In a (iprint m) -> ~ In a (iprint ly)).
Proof.
  intros W (W' & Hn & _ & K & _ & F' & _) O D. split.
  - eapply own_frame; [exact W|exact W'|exact Hn|exact O|]. intros a Ha. apply K; [apply O; exact Ha|apply D; exact Ha].
  - intros a Ha Q. apply F' in Q. destruct Q as [Q|Q]; [exact (D a Ha Q)|]. apply O in Ha. lia.
Qed.

Lemma groups_next h ps ts ns ls i lx h' ly n' p' l' : groups h ps ts ns ls -> (i < len)%nat -> own base h lx -> moved base h lx h' ly -> (forall j a, j <> i -> In a (iprint (ls j)) -> ~ In a (iprint lx)) ->
  own base h' l' -> (forall a, In a (iprint l') -> In a (iprint ly)) -> coop h0 dl (good i) (bad i) (R i) n' (S (ts i)) p' l' ->
  groups h' (replace_nth i p' ps) (upd ts i (S (ts i))) (upd ns i n') (upd ls i l').
Proof.
  intros (E & Ln & Fi & Ow & D) Li Ox M Dx O' Il G'. pose proof E as (W & N0 & K0 & Ho0). pose proof M as (W' & Hn & Ho & K & _ & F' & L').
  assert (OTH : forall j, j <> i -> own base h' (ls j) /\ (forall a, In a (iprint (ls j)) -> ~ In a (iprint ly))) by (intros j Hj; eapply frame_other; [exact W|exact M|apply Ow|intros a; apply Dx; exact Hj]).
  split; [|split; [rewrite replace_length; exact Ln|split; [|split]]].
  - split; [exact W'|]. split; [lia|]. split; [|congruence]. intros a Ha. rewrite K; [apply K0; exact Ha|lia|]. intros Q2. apply Ox in Q2. unfold base in Q2. lia.
  - intros j p Hj. destruct (Nat.eq_dec j i) as [->|Ne].
    + rewrite nth_replace in Hj by lia. injection Hj as <-. rewrite !upd_same. exact G'.
    + rewrite nth_replace_other in Hj by congruence. rewrite !upd_other by exact Ne. apply Fi. exact Hj.
  - intros j. destruct (Nat.eq_dec j i) as [->|Ne]; [rewrite upd_same; exact O'|]. rewrite upd_other by exact Ne. apply OTH. exact Ne.
  - assert (DJ : forall j a, j <> i -> In a (iprint (ls j)) -> ~ In a (iprint l')) by (intros j a Hj Ha Q2; exact (proj2 (OTH j Hj) a Ha (Il a Q2))).
    intros j k a Hjk Ha Hb. destruct (Nat.eq_dec j i) as [->|Nj]; [rewrite upd_same in Ha; rewrite upd_other in Hb by congruence; exact (DJ k a (not_eq_sym Hjk) Hb Ha)|]. rewrite upd_other in Ha by exact Nj.
    destruct (Nat.eq_dec k i) as [->|Nk]; [rewrite upd_same in Hb; exact (DJ j a Nj Ha Hb)|]. rewrite upd_other in Hb by exact Nk. exact (D j k a Hjk Ha Hb).
Qed.

(** Live blocks after a step: the step's own or what was there before. *)
Lemma live_after h h' lx ly a : moved base h lx h' ly -> is_live h' a -> In a (iprint ly) \/ a < hp_next h /\ ~ In a (iprint lx) /\ is_live h a.
Proof.
  intros (_ & _ & _ & K & _ & _ & L) La. destruct (N.lt_ge_cases a (hp_next h)) as [Q1|Q1]; [|left; apply L; [exact La|right; exact Q1]].
  destruct (in_dec N.eq_dec a (iprint lx)) as [I|I]; [left; apply L; [exact La|left; exact I]|]. right. split; [exact Q1|]. split; [exact I|]. destruct La as [b Hb]. exists b. rewrite <- K by assumption. exact Hb.
Qed.

Lemma inside_upd ts i j : j <> i -> (inside (upd ts i (S (ts i))) j <-> inside ts j).
Proof. intros Ne. unfold inside. rewrite upd_other by exact Ne. reflexivity. Qed.

(** A step that leaves the slot alone. *)
Lemma private_step b h ld ps ts ns ls i h' p' n' l' : groups h ps ts ns ls -> status b h ld ts ls -> (i < len)%nat -> (ts i <> 2)%nat -> S (ts i) <> R i -> moved base h (ls i) h' l' ->
  coop h0 dl (good i) (bad i) (R i) n' (S (ts i)) p' l' ->
  groups h' (replace_nth i p' ps) (upd ts i (S (ts i))) (upd ns i n') (upd ls i l') /\ status b h' ld (upd ts i (S (ts i))) (upd ls i l').
Proof.
  intros Gr St Li T1 T2 M G. pose proof Gr as (E & Ln & Fi & Ow & D). pose proof M as (W' & Hn & Ho & K & O' & F' & L'). split.
  { eapply groups_next; [exact Gr|exact Li|apply Ow|exact M|intros j a Hj Ha; apply (D j i a Hj Ha)|exact O'|auto|exact G]. }
  apply (inside_same ts). { intros j. destruct (Nat.eq_dec j i) as [->|Ne]; [|symmetry; apply inside_upd; exact Ne]. unfold inside. rewrite upd_same. lia. }
  assert (SO : forall F, slot_ok h ld ls F -> slot_ok h' ld (upd ls i l') F).
  { intros F [S1 S2]. destruct (frame_other h h' (ls i) l' _ (proj1 E) M S1) as [Q1 Q2]; [intros a Ha; rewrite iprint_cons, app_nil_r in Ha; apply S2; exact Ha|]. split; [exact Q1|].
    intros j a Ha. destruct (Nat.eq_dec j i) as [->|Ne]; [rewrite upd_same; apply Q2; rewrite iprint_cons, app_nil_r; exact Ha|]. rewrite upd_other by exact Ne. apply S2. exact Ha. }
  assert (CO : forall F, cover h ls F -> cover h' (upd ls i l') F).
  { intros F C a Ha La. destruct (live_after _ _ _ _ a M La) as [Q|(Q1 & Q2 & Q3)]; [right; exists i; rewrite upd_same; auto|]. destruct (C a Ha Q3) as [Q|(j & Lj & Ij)]; [left; exact Q|]. right. exists j. split; [exact Lj|].
    rewrite upd_other; [exact Ij|]. intros ->. contradiction. }
  destruct b; cbn [status] in *.
  - destruct St as [[H C]|(F & j & S1 & H & U & C)]; [left; auto|]. right. exists F, j. auto.
  - destruct St as [[(G0 & G1 & G2 & G3) H]|(F & j & k & S1 & H)]; [left|right; exists F, j, k; auto]. split; [|exact H]. split; [exact G0|]. split; [lia|]. split; [rewrite K; [exact G2|lia|apply G3]|].
    intros j Q. destruct (Nat.eq_dec j i) as [->|Ne]; [|rewrite upd_other in Q by exact Ne; exact (G3 j Q)]. rewrite upd_same in Q. apply F' in Q. destruct Q as [Q|Q]; [exact (G3 i Q)|lia].
Qed.

Lemma shared_step b h ld ps ts ns ls i f : groups h ps ts ns ls -> status b h ld ts ls -> nth_error ps i = Some (Step f) ->
  (bad i \/ b = false) /\ (exists k, f h ld = UB k) \/
  exists h' ld' p' n' l' b', f h ld = Ok (h', ld', p') /\ ns i = S n' /\ groups h' (replace_nth i p' ps) (upd ts i (S (ts i))) (upd ns i n') (upd ls i l') /\
    status b' h' ld' (upd ts i (S (ts i))) (upd ls i l') /\
    (b' = true /\ b = true /\ (ts i = 2%nat -> forall j, j <> i -> ~ inside ts j) \/ b' = false /\ (b = false \/ ts i = 2%nat /\ exists j, j <> i /\ inside ts j)).
Proof.
  intros Gr St H. pose proof Gr as (E & Ln & Fi & Ow & D). pose proof (Fi i _ H) as G. cbn [coop] in G. destruct (ns i) as [|n] eqn:En; [contradiction|].
  assert (Li : (i < len)%nat) by (rewrite <- Ln; apply nth_error_Some; congruence). specialize (G h ld E (Ow i)).
  assert (ALONE : (ts i <> 2)%nat -> S (ts i) <> R i -> bad i /\ (exists k, f h ld = UB k) \/ (exists h' p' l', f h ld = Ok (h', ld, p') /\ moved base h (ls i) h' l' /\ coop h0 dl (good i) (bad i) (R i) n (S (ts i)) p' l') ->
    (bad i \/ b = false) /\ (exists k, f h ld = UB k) \/
    exists h' ld' p' n' l' b', f h ld = Ok (h', ld', p') /\ S n = S n' /\ groups h' (replace_nth i p' ps) (upd ts i (S (ts i))) (upd ns i n') (upd ls i l') /\
      status b' h' ld' (upd ts i (S (ts i))) (upd ls i l') /\
      (b' = true /\ b = true /\ (ts i = 2%nat -> forall j, j <> i -> ~ inside ts j) \/ b' = false /\ (b = false \/ ts i = 2%nat /\ exists j, j <> i /\ inside ts j))).
  { intros T1 T2 [[B U]|(h' & p' & l' & Q & M & G')]; [left; auto|]. right. destruct (private_step b h ld ps ts ns ls i h' p' n l' Gr St Li T1 T2 M G') as [P1 P2]. exists h', ld, p', n, l', b. split; [exact Q|]. split; [reflexivity|]. split; [exact P1|]. split; [exact P2|].
    destruct b; [left; split; [reflexivity|]; split; [reflexivity|]; intros Z; contradiction|right; auto]. }
  destruct (Nat.eqb_spec (ts i) 2) as [T2|T2].
  { (* the slot is taken over *)
    clear ALONE. right. destruct G as (h' & q & p' & F & Q & M & Fr & G'). pose proof M as (W' & Hn & Ho & K & O' & F' & L').
    assert (Ol : own base h' (ls i)). { destruct O' as (O1 & O2 & O3). inversion O1; subst. split; [assumption|]. rewrite iprint_cons in O2, O3. split; [|intros a Ha; apply O3; apply in_or_app; right; exact Ha]. clear - O2. induction F as [|y F IH]; [exact O2|]. inversion O2; subst. apply IH. assumption. }
    assert (P1 : groups h' (replace_nth i p' ps) (upd ts i (S (ts i))) (upd ns i n) (upd ls i (ls i))).
    { eapply groups_next; [exact Gr|exact Li|apply Ow|exact M|intros j a Hj Ha; apply (D j i a Hj Ha)|exact Ol|intros a Ha; rewrite iprint_cons; apply in_or_app; right; exact Ha|rewrite T2; exact G']. }
    assert (US : forall j, upd ls i (ls i) j = ls j) by (intros j; destruct (Nat.eq_dec j i) as [->|Ne]; [apply upd_same|apply upd_other; exact Ne]).
    assert (SO : slot_ok h' q (upd ls i (ls i)) F).
    { split.
      - destruct O' as (O1 & O2 & O3). inversion O1; subst. split; [constructor; [assumption|constructor]|]. rewrite iprint_cons in *. rewrite app_nil_r. split; [|intros a Ha; apply O3; apply in_or_app; left; exact Ha]. clear - O2. induction F as [|y F IH]; [constructor|]. inversion O2; subst. constructor; [intros Z; apply H1, in_or_app; left; exact Z|apply IH; assumption].
      - intros j a Ha Z. rewrite US in Z. apply Fr in Ha. apply (Ow j) in Z. lia. }
    assert (II : inside (upd ts i (S (ts i))) i) by (split; [exact Li|]; rewrite upd_same, T2; specialize (RR i); lia).
    exists h', q, p', n, (ls i). destruct (inside_some ts i) as [(j & Nj & Hj)|No].
    - exists false. split; [exact Q|]. split; [reflexivity|]. split; [exact P1|]. split; [|right; split; [reflexivity|right; split; [exact T2|exists j; auto]]].
      right. exists F, i, j. split; [exact SO|]. split; [exact II|]. split; [apply inside_upd; assumption|congruence].
    - assert (Ni : ~ inside ts i) by (unfold inside; lia). assert (NO : forall j, ~ inside ts j) by (intros j Hj; destruct (Nat.eq_dec j i) as [->|Ne]; [exact (Ni Hj)|exact (No j Ne Hj)]).
      destruct b; cbn [status] in St.
      2:{ exfalso. destruct St as [[_ [j Hj]]|(F0 & j & k & _ & Hj & _)]; exact (NO j Hj). }
      exists true. split; [exact Q|]. split; [reflexivity|]. split; [exact P1|]. split; [|left; split; [reflexivity|]; split; [reflexivity|]; intros _; exact No].
      right. exists F, i. split; [exact SO|]. split; [exact II|]. split.
      + intros j Hj. destruct (Nat.eq_dec j i) as [->|Ne]; [reflexivity|]. apply inside_upd in Hj; [|exact Ne]. destruct (NO j Hj).
      + destruct St as [[_ C]|(F0 & j & _ & Hj & _)]; [|destruct (NO j Hj)]. intros a Ha La. destruct (live_after _ _ _ _ a M La) as [Z|(Z1 & Z2 & Z3)].
        * rewrite iprint_cons in Z. apply in_app_or in Z. destruct Z as [Z|Z]; [left; exact Z|]. right. exists i. rewrite US. auto.
        * destruct (C a Ha Z3) as [[]|(j & Lj & Ij)]. right. exists j. rewrite US. auto. }
  destruct (Nat.eqb_spec (ts i) 10) as [T10|T10].
  { (* the slot is read *)
    destruct G as [G1 G2]. assert (Hi : inside ts i) by (split; [exact Li|]; specialize (RR i); lia).
    assert (RD : forall F, slot_ok h ld ls F -> holds h (shared dl ld) F) by (intros F [(O1 & _) _]; inversion O1; subst; assumption). assert (TR : S (ts i) <> R i) by (specialize (RR i); lia).
    destruct b; cbn [status] in St.
    - destruct St as [[No _]|(F & j & S1 & _)]; [destruct (No i Hi)|]. exact (ALONE T2 TR (G1 F (RD F S1))).
    - destruct St as [[(L0 & _ & C & _) _]|(F & j & k & S1 & _)]; [left; split; [right; reflexivity|exact (G2 L0 C)]|]. exact (ALONE T2 TR (G1 F (RD F S1))). }
  destruct (Nat.eqb_spec (S (ts i)) (R i)) as [TR|TR]; [|exact (ALONE T2 TR G)]. clear ALONE.
  (* the slot is released *)
  destruct G as [G1 G2]. assert (Hi : inside ts i) by (split; [exact Li|]; specialize (RR i); lia).
  assert (Hi' : ~ inside (upd ts i (S (ts i))) i) by (unfold inside; rewrite upd_same; lia).
  assert (US : forall l j, l = ls i -> upd ls i l j = ls j) by (intros l j ->; destruct (Nat.eq_dec j i) as [->|Ne]; [apply upd_same|apply upd_other; exact Ne]).
  assert (RL : forall F, slot_ok h ld ls F -> exists h' p', f h ld = Ok (h', ld, p') /\ moved base h ((shared dl ld, F) :: ls i) h' (ls i) /\
    groups h' (replace_nth i p' ps) (upd ts i (S (ts i))) (upd ns i n) (upd ls i (ls i)) /\ slot_gone h' ld (upd ls i (ls i))).
  { intros F [(O1 & O2 & O3) S2]. rewrite iprint_cons, app_nil_r in O2, O3. inversion O1 as [|? ? O4 _]; subst. cbn [fst snd] in O4. destruct (shared_cell _ _ _ _ O4) as [L0 LF].
    assert (OC : own base h ((shared dl ld, F) :: ls i)).
    { split; [constructor; [exact O4|apply Ow]|]. rewrite iprint_cons. split; [apply disjoint_app; [exact O2|apply Ow|intros a Ha; apply S2; exact Ha]|]. intros a Ha. apply in_app_or in Ha. destruct Ha as [Ha|Ha]; [apply O3; exact Ha|apply (Ow i); exact Ha]. }
    destruct (G1 F OC) as (h' & p' & Q & M & C & G'). exists h', p'. split; [exact Q|]. split; [exact M|]. pose proof M as (W' & Hn & Ho & K & O' & F' & L'). split.
    - eapply groups_next; [exact Gr|exact Li|exact OC|exact M| |exact O'|auto|exact G']. intros j a Hj Ha Z. rewrite iprint_cons in Z. apply in_app_or in Z. destruct Z as [Z|Z]; [exact (S2 j a Z Ha)|exact (D j i a Hj Ha Z)].
    - split; [exact L0|]. split; [specialize (O3 ld LF); lia|]. split; [exact C|]. intros j. rewrite US by reflexivity. apply S2. exact LF. }
  destruct b; cbn [status] in St.
  - destruct St as [[No _]|(F & j & S1 & Hj & U & C)]; [destruct (No i Hi)|]. assert (i = j) as <- by (apply U; exact Hi). right. destruct (RL F S1) as (h' & p' & Q & M & P1 & SG).
    exists h', ld, p', n, (ls i), true. split; [exact Q|]. split; [reflexivity|]. split; [exact P1|]. split; [|left; split; [reflexivity|]; split; [reflexivity|]; intros Z; lia]. left. split.
    + intros k Hk. destruct (Nat.eq_dec k i) as [->|Ne]; [exact (Hi' Hk)|]. apply inside_upd in Hk; [|exact Ne]. apply Ne, U, Hk.
    + intros a Ha La. right. destruct (live_after _ _ _ _ a M La) as [Z|(Z1 & Z2 & Z3)]; [exists i; rewrite US by reflexivity; auto|].
      destruct (C a Ha Z3) as [Z|(j & Lj & Ij)]; [exfalso; apply Z2; rewrite iprint_cons; apply in_or_app; left; exact Z|]. exists j. rewrite US by reflexivity. auto.
  - destruct St as [[(L0 & _ & C & _) _]|(F & j & k & S1 & Hj & Hk & Ne)]; [left; split; [right; reflexivity|exact (G2 L0 C)]|]. right. destruct (RL F S1) as (h' & p' & Q & M & P1 & SG).
    exists h', ld, p', n, (ls i), false. split; [exact Q|]. split; [reflexivity|]. split; [exact P1|]. split; [|right; auto]. left. split; [exact SG|].
    destruct (Nat.eq_dec j i) as [->|Nj]; [exists k; apply inside_upd; [congruence|exact Hk]|exists j; apply inside_upd; assumption].
Qed.

Fixpoint apart (ts : nat -> nat) (is : list nat) : Prop :=
  match is with
  | [] => True
  | i :: is => ((i < len)%nat -> ts i = 2%nat -> forall j, j <> i -> ~ inside ts j) /\ apart (upd ts i (S (ts i))) is
  end.

Lemma shared_run : forall is b h ld ps ts ns ls, groups h ps ts ns ls -> status b h ld ts ls ->
  ((exists i, In i is /\ (i < len)%nat /\ bad i) \/ b = false \/ ~ apart ts is) /\ (exists k, schedule is (h, ld, ps) = UB k) \/
  exists h' ld' ps' ts' ns' ls' b', schedule is (h, ld, ps) = Ok (h', ld', ps') /\ groups h' ps' ts' ns' ls' /\ status b' h' ld' ts' ls' /\
    (b' = true /\ b = true /\ apart ts is \/ b' = false /\ (b = false \/ ~ apart ts is)) /\
    forall i p, nth_error ps i = Some p -> (ns i <= count_occ Nat.eq_dec is i)%nat \/ answered p -> exists p', nth_error ps' i = Some p' /\ answered p'.
Proof.
  induction is as [|i is IH]; intros b h ld ps ts ns ls T St; cbn [schedule].
  - right. exists h, ld, ps, ts, ns, ls, b. split; [reflexivity|]. split; [exact T|]. split; [exact St|]. split; [destruct b; [left|right]; cbn [apart]; auto|]. intros i p Hp [Q|Q]; [|exists p; auto]. exists p. split; [exact Hp|]. destruct T as (_ & _ & Fi & _). specialize (Fi i p Hp). cbn [count_occ] in Q.
    destruct p as [s r|f]; [exists s, r; reflexivity|]. cbn [coop] in Fi. destruct (ns i); [contradiction|lia].
  - cbn [step apart]. set (ts1 := upd ts i (S (ts i))).
    destruct (nth_error ps i) as [[s r|f]|] eqn:H.
    2:{ destruct (shared_step b h ld ps ts ns ls i f T St H) as [[B U]|(h1 & ld1 & p1 & n1 & l1 & b1 & E1 & En & T1 & S1 & X)].
        { left. assert (Li : (i < len)%nat) by (destruct T as (_ & <- & _); apply nth_error_Some; congruence). split; [destruct B as [B|B]; [left; exists i; split; [left; reflexivity|auto]|right; left; exact B]|]. destruct U as [k U]. exists k. rewrite U. reflexivity. }
        assert (Li : (i < len)%nat) by (destruct T as (_ & <- & _); apply nth_error_Some; congruence).
        assert (Lp : List.length ps = len) by (apply T).
        rewrite E1. cbn [obind]. destruct (IH b1 h1 ld1 _ _ _ _ T1 S1) as [[U1 U2]|(h' & ld' & ps' & ts' & ns' & ls' & b' & E & T' & S' & X' & A)].
        - left. split; [|exact U2]. destruct U1 as [(j & Ij & Bj)|[U1|U1]]; [left; exists j; split; [right; exact Ij|exact Bj]| |right; right; intros [_ Q]; exact (U1 Q)].
          right. destruct X as [(X1 & _)|(_ & [X|(X1 & j & Nj & Hj)])]; [congruence|left; exact X|]. right. intros [Q _]. exact (Q Li X1 j Nj Hj).
        - right. exists h', ld', ps', ts', ns', ls', b'. split; [exact E|]. split; [exact T'|]. split; [exact S'|]. split.
          + destruct X' as [(X1 & X2 & X3)|(X1 & X2)].
            * destruct X as [(_ & X4 & X5)|(X4 & _)]; [|congruence]. left. split; [exact X1|]. split; [exact X4|]. split; [intros _; exact X5|exact X3].
            * right. split; [exact X1|]. destruct X2 as [X2|X2]; [|right; intros [_ Q]; exact (X2 Q)]. destruct X as [(X3 & _)|(_ & [X3|(X3 & j & Nj & Hj)])]; [congruence|left; exact X3|]. right. intros [Q _]. exact (Q Li X3 j Nj Hj).
          + intros j p Hp Q. destruct (Nat.eq_dec j i) as [->|Ne].
            * apply (A i p1); [apply nth_replace; lia|]. left. rewrite upd_same. destruct Q as [Q|(s & r & Q)]; [|congruence]. cbn [count_occ] in Q. destruct (Nat.eq_dec i i) as [_|Z]; [|congruence]. lia.
            * apply (A j p); [rewrite nth_replace_other by congruence; exact Hp|]. rewrite upd_other by exact Ne. destruct Q as [Q|Q]; [|right; exact Q]. left. cbn [count_occ] in Q. destruct (Nat.eq_dec i j) as [Z|_]; [congruence|exact Q]. }
    all: cbn [obind]; assert (T1 : groups h ps ts1 ns ls) by (destruct T as (E & Ln & Fi & Ow & D); split; [exact E|]; split; [exact Ln|]; split; [|auto];
      intros j p Hj; unfold ts1; destruct (Nat.eq_dec j i) as [->|Ne]; [rewrite upd_same; first [congruence|destruct p as [s0 r0|f0]; [eapply coop_ret; [|apply Fi; exact Hj]; lia|congruence]]|rewrite upd_other by exact Ne; apply Fi; exact Hj]);
      assert (S1 : status b h ld ts1 ls) by (apply (inside_same ts); [|exact St]; intros j; unfold ts1; destruct (Nat.eq_dec j i) as [->|Ne]; [|symmetry; apply inside_upd; exact Ne]; destruct T as (_ & Ln & Fi & _);
        first [specialize (Fi i _ H); assert (R i <= ts i)%nat by (destruct (ns i); apply Fi); unfold inside; rewrite upd_same; lia | apply nth_error_None in H; unfold inside; rewrite upd_same; lia]);
      assert (FIRST : (i < len)%nat -> ts i = 2%nat -> forall j, j <> i -> ~ inside ts j) by (intros Li T2; exfalso; destruct T as (_ & Ln & Fi & _);
        first [specialize (Fi i _ H); assert (R i <= ts i)%nat by (destruct (ns i); apply Fi); specialize (RR i); lia | apply nth_error_None in H; lia]);
      (destruct (IH b h ld ps ts1 ns ls T1 S1) as [[U1 U2]|(h' & ld' & ps' & ts' & ns' & ls' & b' & E & T' & S' & X' & A)];
       [left; split; [|exact U2]; destruct U1 as [(j & Ij & Bj)|[U1|U1]]; [left; exists j; split; [right; exact Ij|exact Bj]|right; left; exact U1|right; right; intros [_ Q]; exact (U1 Q)]
       |right; exists h', ld', ps', ts', ns', ls', b'; split; [exact E|]; split; [exact T'|]; split; [exact S'|]; split;
        [destruct X' as [(X1 & X2 & X3)|(X1 & X2)]; [left; auto|right; split; [exact X1|]; destruct X2 as [X2|X2]; [left; exact X2|right; intros [_ Q]; exact (X2 Q)]]|]]).
    + intros j p Hp Q. apply (A j p Hp). destruct Q as [Q|Q]; [|right; exact Q]. cbn [count_occ] in Q. destruct (Nat.eq_dec i j) as [->|Ne]; [|left; exact Q]. right. assert (p = Ret s r) as -> by congruence. exists s, r. reflexivity.
    + intros j p Hp Q. apply (A j p Hp). destruct Q as [Q|Q]; [|right; exact Q]. cbn [count_occ] in Q. destruct (Nat.eq_dec i j) as [->|Ne]; [congruence|left; exact Q].
Qed.

Lemma apart_spec : forall is pre ts, (forall j, ts j = turns pre j) ->
  (apart ts is <-> forall p i rest, is = p ++ i :: rest -> (i < len)%nat -> turns (pre ++ p) i = 2%nat -> forall j, j <> i -> ~ inside (turns (pre ++ p)) j).
Proof.
  induction is as [|i is IH]; intros pre ts Et; cbn [apart].
  - split; [intros _ p i rest Q; destruct p; discriminate|auto].
  - assert (E1 : forall j, upd ts i (S (ts i)) j = turns (pre ++ [i]) j).
    { intros j. unfold turns. rewrite count_occ_app. cbn [count_occ]. destruct (Nat.eq_dec i j) as [<-|Ne]; [rewrite upd_same, Et; unfold turns; lia|]. rewrite upd_other by congruence. rewrite Et. unfold turns. lia. }
    assert (I1 : forall j, inside ts j <-> inside (turns pre) j) by (intros j; unfold inside; rewrite Et; reflexivity).
    rewrite (IH (pre ++ [i]) _ E1). split.
    + intros [H1 H2] [|y p] k rest Q; cbn [app] in Q; injection Q as <- Q.
      * rewrite app_nil_r. intros Li T2 j Nj Hj. rewrite Et in H1. exact (H1 Li T2 j Nj (proj2 (I1 j) Hj)).
      * specialize (H2 p k rest Q). rewrite <- app_assoc in H2. exact H2.
    + intros H. split.
      * intros Li T2 j Nj Hj. specialize (H [] i is eq_refl Li). rewrite app_nil_r, <- Et in H. exact (H T2 j Nj (proj1 (I1 j) Hj)).
      * intros p k rest Q. specialize (H (i :: p) k rest (f_equal (cons i) Q)). rewrite <- app_assoc. exact H.
Qed.

Lemma shared_start ps N0 ld : heap_wf h0 -> List.length ps = len -> (forall i p, nth_error ps i = Some p -> coop h0 dl (good i) (bad i) (R i) N0 0 p []) ->
  groups h0 ps (fun _ => O) (fun _ => N0) (fun _ => []) /\ status true h0 ld (fun _ => O) (fun _ => []).
Proof.
  intros W Ln F. split.
  - split; [apply ext_refl; exact W|]. split; [exact Ln|]. split; [exact F|]. split; [|intros i j a _ []]. intros i. split; [constructor|]. split; [constructor|]. intros a [].
  - left. split; [unfold inside; lia|]. intros a Ha [b Hb]. destruct W as (_ & _ & W). rewrite W in Hb by exact Ha. discriminate.
Qed.

(** Requests sharing a slot, interleaved in any way. *)
Lemma shared_interleave ps N0 is ld : heap_wf h0 -> List.length ps = len -> (forall i p, nth_error ps i = Some p -> coop h0 dl (good i) (bad i) (R i) N0 0 p []) ->
  let excl := forall p i rest, is = p ++ i :: rest -> (i < len)%nat -> turns p i = 2%nat -> forall j, j <> i -> ~ inside (turns p) j in
  ((exists i, In i is /\ (i < len)%nat /\ bad i) \/ ~ excl) /\ (exists k, schedule is (h0, ld, ps) = UB k) \/
  exists h' ld' ps', schedule is (h0, ld, ps) = Ok (h', ld', ps') /\ kept (hp_next h0) h0 h' /\ List.length ps' = len /\
    (forall i s r, nth_error ps' i = Some (Ret s r) -> ~ bad i /\ good i s r) /\
    (forall i, (i < len)%nat -> (N0 <= turns is i)%nat -> exists s r, nth_error ps' i = Some (Ret s r)) /\
    (Forall answered ps' -> excl /\ no_leak (hp_next h0) h').
Proof.
  intros W Ln F excl. destruct (shared_start ps N0 ld W Ln F) as [Gr St]. pose proof (apart_spec is [] (fun _ => O) (fun j => eq_refl)) as AS. cbn [app] in AS. fold excl in AS.
  destruct (shared_run is true h0 ld ps _ _ _ Gr St) as [[U1 U2]|(h' & ld' & ps' & ts' & ns' & ls' & b' & E & T' & S' & X & A)].
  - left. split; [|exact U2]. destruct U1 as [U1|[U1|U1]]; [left; exact U1|discriminate|]. right. rewrite <- AS. exact U1.
  - right. exists h', ld', ps'. split; [exact E|]. destruct T' as (T1 & T2 & T3 & T4 & T5). split; [apply T1|]. split; [exact T2|]. split; [|split].
    + intros i s r H. specialize (T3 i _ H). destruct (ns' i); destruct T3 as (_ & _ & B & G); auto.
    + intros i Li C. destruct (nth_error ps i) as [p|] eqn:Hp; [|apply nth_error_None in Hp; lia]. destruct (A i p Hp (or_introl C)) as (p' & Hp' & s & r & ->). exists s, r. exact Hp'.
    + intros Al. assert (DONE : forall i, (i < len)%nat -> (R i <= ts' i)%nat /\ iprint (ls' i) = []).
      { intros i Li. destruct (nth_error ps' i) as [p|] eqn:Hp; [|apply nth_error_None in Hp; lia]. rewrite Forall_forall in Al. destruct (Al p (nth_error_In _ _ Hp)) as (s & r & ->). specialize (T3 i _ Hp). destruct (ns' i); destruct T3 as (Q1 & Q2 & _); auto. }
      assert (NI : forall i, ~ inside ts' i) by (intros i [Q1 Q2]; destruct (DONE i Q1); lia).
      destruct b'; cbn [status] in S'.
      2:{ exfalso. destruct S' as [[_ [i Q]]|(G & i & j & _ & Q & _)]; exact (NI i Q). }
      destruct X as [(_ & _ & X)|(X & _)]; [|discriminate]. split; [apply AS; exact X|]. destruct S' as [[_ C]|(G & i & _ & Q & _)]; [|destruct (NI i Q)].
      intros a Ha La. destruct (C a Ha La) as [[]|(i & Li & Ii)]. destruct (DONE i Li) as [_ Z]. rewrite Z in Ii. destruct Ii.
Qed.
End Shared.
