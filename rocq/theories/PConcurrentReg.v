(** Requests that share nothing but the heap: what one request holds is left alone
    by the steps of the others. *)
From Coq Require Import Permutation.
From Verif Require Import Base PBase MOs MBase64 MSerialize MVoucher MCrypto MRequest MHeap MArray MVoucherHeap MConfig MHandlers MConcurrent SBase64 SHeap SArray SConfig SVoucher SRequest SHandlers
  PBase64 PHeap PArray PBlocks PConfig PConfigMore PCertFiles POwn PAcquire PAcquire2 PMasa PConcurrent.
Open Scope N_scope.

(** *** What a request holds, with its contents *)
Inductive item :=
| IArr (p : N) (b : option barray)
| IList (p : N) (xs : option certlist)
| IBuf (p : N) (d : option bytes)
| IRaw (p : N)
| IDec (p arr : N) (d : bytes)
| IHole (p arr : N)
| IGone (p : N).
Definition ow (x : item) : owned :=
  match x with IArr p _ => OArr p | IList p _ => OList p | IBuf p _ => OBuf p | IRaw p => OArr p | IDec p _ _ => OArr p | IHole p _ => OArr p | IGone p => OBuf p end.
Definition holds (h : heap) (x : item) (F : list N) : Prop :=
  match x with
  | IArr p b => owns h (OArr p) F /\ h_barray h p = Ok b
  | IList p xs => owns h (OList p) F /\ h_certlist h p = Ok xs
  | IBuf p d => owns h (OBuf p) F /\ load_buf h p = Ok d
  | IRaw p => p <> 0 /\ F = [p] /\ hp_cell h p = Live (Struct [P 0; I 0])
  | IDec p arr d => p <> 0 /\ arr <> 0 /\ arr <> p /\ F = [p; arr] /\ hp_cell h p = Live (Struct [P arr; I (Z.of_N (blen d))]) /\ hp_cell h arr = Live (Buf d)
  | IHole p arr => p <> 0 /\ arr <> 0 /\ arr <> p /\ F = [p; arr] /\ hp_cell h p = Live (Struct [P arr; I (-1)]) /\ hp_cell h arr = Freed
  | IGone p => p <> 0 /\ F = [p] /\ hp_cell h p = Freed
  end.
Definition solid (x : item) : Prop := match x with IHole _ _ | IGone _ => False | _ => True end.

Lemma holds_owns h x F : holds h x F -> solid x -> owns h (ow x) F.
Proof.
  destruct x as [p b|p xs|p d|p|p arr d|p arr|p]; cbn [holds solid ow]; intros H S; try tauto.
  - destruct H as (P0 & -> & C). right. exists 0, 0%Z. auto.
  - destruct H as (P0 & A0 & Ne & -> & C & D). right. exists arr, (Z.of_N (blen d)). split; [exact P0|]. split; [exact C|]. right. split; [exact A0|]. split; [exact Ne|]. split; [exists d; exact D|reflexivity].
Qed.
Lemma frame_load_buf h h' p d F : owns h (OBuf p) F -> (forall a, In a F -> hp_cell h' a = hp_cell h a) -> load_buf h p = Ok d -> load_buf h' p = Ok d.
Proof.
  intros [[-> ->]|(P0 & _ & ->)] E H; [exact H|]. unfold load_buf in *. rewrite E by (left; reflexivity). exact H.
Qed.
Lemma frame_barray h h' p b F : owns h (OArr p) F -> (forall a, In a F -> hp_cell h' a = hp_cell h a) -> h_barray h p = Ok b -> h_barray h' p = Ok b.
Proof.
  intros [[-> ->]|(q & n & P0 & C & Cs)] E H; [exact H|].
  assert (C' : hp_cell h' p = Live (Struct [P q; I n])) by (rewrite E; [exact C|]; destruct Cs as [[_ ->]|(_ & _ & _ & ->)]; left; reflexivity).
  unfold h_barray in *. rewrite (proj2 (N.eqb_neq _ _) P0) in *.
  rewrite (get_ptr_cell _ _ 0%nat _ q P0 C eq_refl) in H. rewrite (get_ptr_cell _ _ 0%nat _ q P0 C' eq_refl).
  rewrite (get_int_cell _ _ 1%nat _ _ P0 C eq_refl) in H. rewrite (get_int_cell _ _ 1%nat _ _ P0 C' eq_refl). cbn [obind] in *.
  unfold load_buf in *. destruct Cs as [[-> ->]|(Q0 & _ & _ & ->)]; [exact H|]. rewrite (proj2 (N.eqb_neq _ _) Q0) in *. rewrite E by (right; left; reflexivity). exact H.
Qed.
Lemma frame_certlist h h' p xs F : heap_wf h -> heap_wf h' -> owns h (OList p) F -> (forall a, In a F -> hp_cell h' a = hp_cell h a) -> h_certlist h p = Ok xs -> h_certlist h' p = Ok xs.
Proof.
  intros W W' [[-> ->]|[items A]] E H; [exact H|]. pose proof (alist_frame _ _ _ _ _ A E) as A'. unfold h_certlist in *.
  destruct (p =? 0); [exact H|]. destruct (alist_items _ _ _ _ W A) as [Q _]. destruct (alist_items _ _ _ _ W' A') as [Q' _]. rewrite Q in H. rewrite Q'. exact H.
Qed.
Lemma holds_frame h h' x F : heap_wf h -> heap_wf h' -> holds h x F -> (forall a, In a F -> hp_cell h' a = hp_cell h a) -> holds h' x F.
Proof.
  intros W W' H E. destruct x as [p b|p xs|p d|p|p arr d|p arr|p]; cbn [holds] in *.
  - destruct H as [O B]. split; [eapply owns_frame; eassumption|eapply frame_barray; eassumption].
  - destruct H as [O B]. split; [eapply owns_frame; eassumption|eapply frame_certlist; [exact W|exact W'|eassumption..]].
  - destruct H as [O B]. split; [eapply owns_frame; eassumption|eapply frame_load_buf; eassumption].
  - destruct H as (P0 & -> & C). split; [exact P0|]. split; [reflexivity|]. rewrite E by (left; reflexivity). exact C.
  - destruct H as (P0 & A0 & Ne & -> & C & D). repeat (split; [assumption || reflexivity|]). rewrite !E by (cbn [In]; auto). auto.
  - destruct H as (P0 & A0 & Ne & -> & C & D). repeat (split; [assumption || reflexivity|]). rewrite !E by (cbn [In]; auto). auto.
  - destruct H as (P0 & -> & C). split; [exact P0|]. split; [reflexivity|]. rewrite E by (left; reflexivity). exact C.
Qed.

Definition iprint (l : list (item * list N)) : list N := List.concat (map snd l).
Definition own (base : N) (h : heap) (l : list (item * list N)) : Prop :=
  Forall (fun e => holds h (fst e) (snd e)) l /\ NoDup (iprint l) /\ (forall a, In a (iprint l) -> base <= a < hp_next h).

Lemma iprint_in : forall l e a, In e l -> In a (snd e) -> In a (iprint l).
Proof. intros l e a He Ha. unfold iprint. apply in_concat. exists (snd e). split; [apply in_map; exact He|exact Ha]. Qed.
Lemma iprint_cons x F l : iprint ((x, F) :: l) = F ++ iprint l.
Proof. reflexivity. Qed.
Lemma iprint_perm : forall l l', Permutation l l' -> Permutation (iprint l) (iprint l').
Proof.
  intros l l' P. induction P as [|e a b P IH|e1 e2 a|a b c P1 IH1 P2 IH2]; unfold iprint in *; cbn [map List.concat] in *.
  - constructor.
  - apply Permutation_app_head. exact IH.
  - rewrite !app_assoc. apply Permutation_app_tail. apply Permutation_app_comm.
  - eapply Permutation_trans; eassumption.
Qed.
Lemma iprint_perm_in l l' a : Permutation l l' -> (In a (iprint l) <-> In a (iprint l')).
Proof. intros P. pose proof (iprint_perm _ _ P) as PP. split; apply Permutation_in; [exact PP|apply Permutation_sym; exact PP]. Qed.
Lemma own_perm base h l l' : Permutation l l' -> own base h l -> own base h l'.
Proof.
  intros P (O & ND & B). split; [eapply Permutation_Forall; [exact P|exact O]|]. split; [eapply Permutation_NoDup; [apply iprint_perm; exact P|exact ND]|].
  intros a Ha. apply B. apply (iprint_perm_in _ _ a P). exact Ha.
Qed.
Lemma own_frame base h h' l : heap_wf h -> heap_wf h' -> hp_next h <= hp_next h' -> own base h l -> (forall a, In a (iprint l) -> hp_cell h' a = hp_cell h a) -> own base h' l.
Proof.
  intros W W' L (O & ND & B) E. split; [|split; [exact ND|intros a Ha; apply B in Ha; lia]]. rewrite Forall_forall in *. intros e He.
  eapply holds_frame; [exact W|exact W'|apply O; exact He|]. intros a Ha. apply E. eapply iprint_in; eassumption.
Qed.

(** One step as the other requests see it: only the step's own cells and new ones
    change. *)
Definition moved (base : N) (h : heap) (l : list (item * list N)) (h' : heap) (l' : list (item * list N)) : Prop :=
  heap_wf h' /\ hp_next h <= hp_next h' /\ hp_oom h' = hp_oom h /\
  (forall a, a < hp_next h -> ~ In a (iprint l) -> hp_cell h' a = hp_cell h a) /\
  own base h' l' /\
  (forall a, In a (iprint l') -> In a (iprint l) \/ hp_next h <= a) /\
  (forall a, is_live h' a -> In a (iprint l) \/ hp_next h <= a -> In a (iprint l')).

Lemma moved_trans base h l h1 l1 h2 l2 : moved base h l h1 l1 -> moved base h1 l1 h2 l2 -> moved base h l h2 l2.
Proof.
  intros (W1 & N1 & O1 & K1 & M1 & F1 & L1) (W2 & N2 & O2 & K2 & M2 & F2 & L2).
  assert (KK : forall a, a < hp_next h1 -> ~ In a (iprint l1) -> is_live h2 a -> is_live h1 a) by (intros a Ha Hn [b Hb]; exists b; rewrite <- K2 by assumption; exact Hb).
  split; [exact W2|]. split; [lia|]. split; [congruence|]. split; [|split; [exact M2|split]].
  - intros a Ha Hn. assert (Hn1 : ~ In a (iprint l1)) by (intros Q; apply F1 in Q; destruct Q as [Q|Q]; [contradiction|lia]). rewrite K2 by (try assumption; lia). apply K1; assumption.
  - intros a Ha. apply F2 in Ha. destruct Ha as [Ha|Ha]; [apply F1; exact Ha|right; lia].
  - intros a La Ha. apply L2; [exact La|]. destruct (N.lt_ge_cases a (hp_next h1)) as [Q|Q]; [|right; exact Q]. left.
    destruct (in_dec N.eq_dec a (iprint l1)) as [I|I]; [exact I|]. apply L1; [apply KK; assumption|exact Ha].
Qed.
Lemma moved_perm base h l h' l' l0 l0' : Permutation l l0 -> Permutation l' l0' -> moved base h l h' l' -> moved base h l0 h' l0'.
Proof.
  intros P P' (W1 & N1 & O1 & K1 & M1 & F1 & L1). pose proof (fun a => iprint_perm_in _ _ a P) as I. pose proof (fun a => iprint_perm_in _ _ a P') as I'.
  split; [exact W1|]. split; [exact N1|]. split; [exact O1|]. split; [intros a Ha Hn; apply K1; [exact Ha|rewrite I; exact Hn]|]. split; [eapply own_perm; eassumption|].
  split; intros a; rewrite <- I, <- I'; [apply F1|apply L1].
Qed.
Lemma moved_still base h l : heap_wf h -> own base h l -> moved base h l h l.
Proof.
  intros W O. split; [exact W|]. split; [lia|]. split; [reflexivity|]. split; [reflexivity|]. split; [exact O|]. split; [tauto|]. intros a [b Hb] [Q|Q]; [exact Q|]. destruct W as (_ & _ & W). rewrite W in Hb by exact Q. discriminate.
Qed.
(** Blocks that come and go within a step. *)
Lemma moved_ext base h l h' : heap_wf h -> own base h l -> ext h h' -> st (hp_next h) h' [] -> moved base h l h' l.
Proof.
  intros W O (W' & Hn & K & Ho) ((_ & _ & L) & _). split; [exact W'|]. split; [exact Hn|]. split; [exact Ho|]. split; [intros a Ha _; apply K; exact Ha|]. split; [|split].
  - eapply own_frame; [exact W|exact W'|exact Hn|exact O|]. intros a Ha. apply K. apply O. exact Ha.
  - tauto.
  - intros a La [Q|Q]; [exact Q|]. apply (L a Q) in La. destruct La.
Qed.
(** One more thing held. *)
Lemma moved_new base h l h' x F : heap_wf h -> base <= hp_next h -> own base h l -> ext h h' -> (forall a, hp_next h <= a -> is_live h' a -> In a F) -> NoDup F -> (forall a, In a F -> hp_next h <= a < hp_next h') ->
  holds h' x F -> moved base h l h' ((x, F) :: l).
Proof.
  intros W Bn O (W' & Hn & K & Ho) L ND B H. split; [exact W'|]. split; [exact Hn|]. split; [exact Ho|]. split; [intros a Ha _; apply K; exact Ha|].
  assert (O' : own base h' l) by (eapply own_frame; [exact W|exact W'|exact Hn|exact O|]; intros a Ha; apply K; apply O; exact Ha).
  split; [|split].
  - split; [constructor; [exact H|apply O']|]. rewrite iprint_cons. split.
    + apply disjoint_app; [exact ND|apply O|]. intros a Ha Q. apply B in Ha. apply O in Q. lia.
    + intros a Ha. apply in_app_or in Ha. destruct Ha as [Ha|Ha]; [apply B in Ha; lia|]. apply O'. exact Ha.
  - intros a Ha. rewrite iprint_cons in Ha. apply in_app_or in Ha. destruct Ha as [Ha|Ha]; [right; apply B; exact Ha|left; exact Ha].
  - intros a La Ha. rewrite iprint_cons. apply in_or_app. destruct Ha as [Ha|Ha]; [right; exact Ha|left; apply L; assumption].
Qed.
Lemma moved_arrived base h l h' x : heap_wf h -> base <= hp_next h -> own base h l -> arrived h h' (ow x) -> (forall F, owns h' (ow x) F -> holds h' x F) -> exists F, moved base h l h' ((x, F) :: l).
Proof.
  intros W Bn O (E & F & S) H. exists F. pose proof S as ((W' & _ & L) & Ow & ND & B). assert (EF : oprint [(ow x, F)] = F) by (unfold oprint; cbn [map List.concat snd]; apply app_nil_r). rewrite EF in *.
  apply moved_new; try assumption.
  - intros a Ha La. apply (L a Ha). exact La.
  - intros a Ha. split; [apply B; exact Ha|]. eapply st_low; [exact S|]. rewrite EF. exact Ha.
  - apply H. inversion Ow; subst. assumption.
Qed.
Lemma moved_free base h x F l : heap_wf h -> own base h ((x, F) :: l) -> solid x -> exists h', free_owned h (ow x) = Ok h' /\ moved base h ((x, F) :: l) h' l.
Proof.
  intros W (O & ND & B) S. inversion O as [|? ? O1 O2]; subst. cbn [fst snd] in O1. destruct (owns_free h (ow x) F W (holds_owns _ _ _ O1 S)) as (h' & E & [R1 R2] & W' & Hn & Ho). exists h'. split; [exact E|].
  rewrite iprint_cons in *. assert (D : forall a, In a (iprint l) -> ~ In a F) by (intros a Ha Q; exact (disjoint_of_NoDup _ _ ND a Q Ha)).
  split; [exact W'|]. split; [lia|]. split; [exact Ho|]. split; [intros a _ Hn'; apply R2; intros Q; apply Hn'; rewrite iprint_cons; apply in_or_app; left; exact Q|]. split; [|split].
  - eapply own_frame; [exact W|exact W'|lia| |intros a Ha; apply R2; apply D; exact Ha]. split; [exact O2|]. split; [|intros a Ha; apply B; apply in_or_app; right; exact Ha].
    clear - ND. induction F as [|y F IH]; [exact ND|]. inversion ND; subst. apply IH. assumption.
  - intros a Ha. left. rewrite iprint_cons. apply in_or_app. right. exact Ha.
  - intros a [b La] Ha. rewrite iprint_cons in Ha. destruct Ha as [Ha|Ha].
    + apply in_app_or in Ha. destruct Ha as [Ha|Ha]; [|exact Ha]. destruct (R1 a Ha) as [_ Q]. congruence.
    + destruct W' as (_ & _ & W'). rewrite W' in La by lia. discriminate.
Qed.
Lemma hole_free h x F : holds h x F -> ~ solid x -> exists k, free_owned h (ow x) = UB k.
Proof.
  destruct x as [p b|p xs|p d|p|p arr d|p arr|p]; cbn [holds solid ow]; intros H S; try tauto.
  - destruct H as (P0 & A0 & Ne & -> & C & D). cbn [free_owned]. unfold h_free_binary_array. rewrite (proj2 (N.eqb_neq _ _) P0), (get_ptr_cell _ _ 0%nat _ arr P0 C eq_refl). cbn [obind].
    rewrite (proj2 (N.eqb_neq _ _) A0). unfold sys_free. rewrite (proj2 (N.eqb_neq _ _) A0), D. eexists. reflexivity.
  - destruct H as (P0 & -> & C). cbn [free_owned]. unfold sys_free. rewrite (proj2 (N.eqb_neq _ _) P0), C. eexists. reflexivity.
Qed.

(** *** A program that keeps to what it holds: it ends within [n] steps with an
    answer of [good], or, only when [bad], it does not survive. *)
Section Fine.
Variables (h0 : heap) (good : Z -> bytes -> Prop) (bad : Prop).
Let base := hp_next h0.

Fixpoint fine (n : nat) (p : prog) (l : list (item * list N)) : Prop :=
  match p with
  | Ret s r => iprint l = [] /\ ~ bad /\ good s r
  | Step f =>
    match n with
    | O => False
    | S n => forall h ld, ext h0 h -> own base h l ->
        bad /\ (exists k, f h ld = UB k) \/
        exists h' p' l', f h ld = Ok (h', ld, p') /\ moved base h l h' l' /\ fine n p' l'
    end
  end.

Lemma fine_perm : forall n p l l', Permutation l l' -> fine n p l -> fine n p l'.
Proof.
  intros [|n] [s r|f] l l' P H; cbn [fine] in *; try contradiction.
  - destruct H as (H1 & H2). split; [|exact H2]. apply iprint_perm in P. rewrite H1 in P. apply Permutation_nil. exact P.
  - destruct H as (H1 & H2). split; [|exact H2]. apply iprint_perm in P. rewrite H1 in P. apply Permutation_nil. exact P.
  - intros h ld E O. destruct (H h ld E (own_perm _ _ _ _ (Permutation_sym P) O)) as [U|(h' & p' & l2 & Q & M & G)]; [left; exact U|]. right. exists h', p', l2. split; [exact Q|]. split; [|exact G]. eapply moved_perm; [exact P|apply Permutation_refl|exact M].
Qed.
Lemma fine_more : forall n m p l, (n <= m)%nat -> fine n p l -> fine m p l.
Proof.
  induction n as [|n IH]; intros [|m] [s r|f] l L H; cbn [fine] in *; try contradiction; try exact H; try lia.
  intros h ld E O. destruct (H h ld E O) as [U|(h' & p' & l2 & Q & M & G)]; [left; exact U|]. right. exists h', p', l2. split; [exact Q|]. split; [exact M|]. apply IH; [lia|exact G].
Qed.
Lemma fine_free n x F l k : solid x -> fine n k l -> fine (S n) (clean_steps [ow x] k) ((x, F) :: l).
Proof.
  intros S G. cbn [clean_steps fine]. intros h ld E O. right. destruct (moved_free base h x F l (proj1 E) O S) as (h' & Q & M). exists h', k, l. rewrite Q. cbn [obind]. auto.
Qed.
(** NULL pointers may be counted as held. *)
Lemma fine_null n p l x : (forall h, holds h x []) -> fine n p ((x, []) :: l) -> fine n p l.
Proof.
  intros Hx H. assert (I : iprint ((x, []) :: l) = iprint l) by reflexivity. destruct n as [|n], p as [s r|f]; cbn [fine] in *; try (rewrite I in H; exact H); [contradiction|].
  intros h ld E (O & ND & B). destruct (H h ld E) as [U|(h' & p' & l2 & Q & M & G)]; [|left; exact U|].
  - split; [constructor; [apply Hx|exact O]|]. rewrite I. auto.
  - right. exists h', p', l2. split; [exact Q|]. split; [|exact G]. unfold moved in *. rewrite I in M. exact M.
Qed.
(** The clean-up of everything held. *)
Lemma fine_clean : forall l n s r, (List.length l <= n)%nat -> (bad /\ Exists (fun e => ~ solid (fst e)) l \/ Forall (fun e => solid (fst e)) l /\ ~ bad /\ good s r) ->
  fine n (clean_steps (map (fun e => ow (fst e)) l) (Ret s r)) l.
Proof.
  induction l as [|[x F] l IH]; intros n s r L H.
  - destruct H as [[_ H]|(_ & H)]; [inversion H|]. destruct n; (split; [reflexivity|exact H]).
  - cbn [List.length map fst clean_steps] in *. destruct n as [|n]; [lia|]. assert (Sx : solid x \/ bad /\ ~ solid x).
    { destruct H as [[B E]|(S & _)]; [|left; inversion S; subst; assumption]. destruct x; cbn [solid]; auto. }
    destruct Sx as [Sx|[B Sx]].
    + apply (fine_free n x F l (clean_steps (map (fun e => ow (fst e)) l) (Ret s r)) Sx). apply IH; [lia|]. destruct H as [[B E]|(S & H)]; [left; split; [exact B|inversion E; subst; [contradiction|assumption]]|right; split; [inversion S; subst; assumption|exact H]].
    + cbn [fine]. intros h ld E O. left. split; [exact B|]. destruct O as (O & _). inversion O as [|? ? O1 O2]; subst. cbn [fst snd] in O1.
      destruct (hole_free _ _ _ O1 Sx) as [k Q]. exists k. rewrite Q. reflexivity.
Qed.
End Fine.
