(** Proofs about a device short of memory: what the caller sees. *)
From Coq Require Import Permutation.
From Verif Require Import Base PBase MOs MBase64 MSerialize MVoucher MCrypto MRequest MHeap MArray MVoucherHeap MConfig MHandlers MLog MEnrolLogHeap MHandlerHeap MSignCert MSignHeap SBase64 SHeap SArray SConfig SVoucher SRequest SHandlers SPledge SLog SSignCert SSignHeap SSignShort
  PBase64 PHeap PArray PBlocks PConfig PConfigMore PCertFiles POwn PHold PAcquire PAcquire2 PPledge4 PSignCert2 PSignCert3 PSignHeap PSignHeap2 PSignHeap4 PSignShort2.
Open Scope N_scope.

Lemma caller_arrays_arrs : forall h, heap_wf h -> arrs [] h (caller_arrays h) [(hp_next h, 0, 0%Z); (hp_next h + 1, 0, 0%Z)] /\ hp_next (caller_arrays h) = hp_next h + 2 /\ hp_oom (caller_arrays h) = hp_oom h.
Proof.
  intros h W. assert (A0 : arrs [] h h []) by (split; [apply ext_refl; exact W|]; split; [apply st_init; exact W|constructor]). unfold caller_arrays.
  destruct (arrs_local _ _ _ _ A0) as (h1 & E1 & A1 & _ & N1). rewrite E1. cbn [snd]. destruct (arrs_local _ _ _ _ A1) as (h2 & E2 & A2 & _ & N2). rewrite E2. cbn [snd]. rewrite N1 in *.
  split; [eapply arrs_perm; [|exact A2]; apply perm_swap|]. split; [lia|]. destruct A2 as ((_ & _ & _ & O) & _). exact O.
Qed.

Lemma first_one : forall h i j, first_refused h i -> first_refused h j -> 1 <= i -> 1 <= j -> i = j.
Proof. intros h i j [A B] [C D] I J. destruct (N.lt_trichotomy i j) as [L|[L|L]]; [|exact L|]; [rewrite D in A by lia|rewrite B in C by lia]; discriminate. Qed.
Lemma first_fit : forall h i, first_refused h i -> 1 <= i -> i <= 11 -> ~ lists_fit h.
Proof. intros h i [A _] I J F. rewrite F in A by lia. discriminate. Qed.
Lemma allocs_range : forall i, In i node_allocs \/ In i text_allocs -> 1 <= i /\ i <= 11.
Proof. intros i H. unfold node_allocs, text_allocs in H. cbn [In] in H. lia. Qed.
Lemma allocs_apart : forall i, In i node_allocs -> In i text_allocs -> False.
Proof. intros i H K. unfold node_allocs, text_allocs in *. cbn [In] in *. lia. Qed.

Lemma arrs_none : forall h h', arrs [] h h' [(hp_next h, 0, 0%Z); (hp_next h + 1, 0, 0%Z)] -> no_arrays h h'.
Proof.
  intros h h' A. pose proof A as (_ & _ & F). destruct (cells_inv _ _ _ _ _ F) as (_ & C1 & F1). destruct (cells_inv _ _ _ _ _ F1) as (_ & C2 & _). pose proof (full_arrs_kept _ _ _ _ A) as K.
  split; [exact C1|]. split; [exact C2|]. split; [exact K|]. intros a La Ha. pose proof (full_arrs_only _ _ _ _ _ A La Ha) as Q1. cbn in Q1. destruct Q1 as [<-|[<-|[]]]; auto.
Qed.
Lemma arrs_both : forall h h' bc zc bk zk c k, arrs [] h h' [(hp_next h, bc, zc); (hp_next h + 1, bk, zk)] -> made h' c bc zc -> made h' k bk zk -> both_slots h h' c k.
Proof.
  intros h h' bc zc bk zk c k A Mc Mk. pose proof A as (_ & _ & F). destruct (cells_inv _ _ _ _ _ F) as (_ & C1 & F1). destruct (cells_inv _ _ _ _ _ F1) as (_ & C2 & _). exists bc, bk.
  assert (SL : forall p b z d, hp_cell h' p = Live (Struct [P b; I z]) -> made h' d b z -> slot_holds h' p d b).
  { intros p b z d Cp M. destruct d as [d|]; cbn [made slot_holds] in *; [destruct M as (_ & -> & Q); split; assumption|]. destruct M as [-> ->]. auto. }
  split; [eapply SL; eassumption|]. split; [eapply SL; eassumption|]. split.
  { intros ->. destruct (N.eq_dec bk 0) as [|Bk]; [assumption|exfalso]. pose proof A as (_ & (_ & _ & ND & _) & _). change (NoDup (snd (slot_owned (hp_next h, bk, zc)) ++ places [] [(hp_next h + 1, bk, zk)])) in ND.
    eapply disjoint_of_NoDup; [exact ND| |eapply places_b; [left; reflexivity|exact Bk]]. rewrite slot_fst, (proj2 (N.eqb_neq _ _) Bk). right. left. reflexivity. }
  split; [exact (full_arrs_kept _ _ _ _ A)|].
  intros a La Ha. pose proof (full_arrs_only _ _ _ _ _ A La Ha) as Q1. rewrite !places_cons, !slot_fst in Q1. destruct (bc =? 0), (bk =? 0); cbn in Q1; intuition.
Qed.

Lemma gen_cases : forall nn dv h r, heap_wf h -> texts_at nn h -> device_ok dv -> dv_random dv = Some r ->
  let run := full_generate_sign_cert nn dv (caller_arrays h) (hp_next h) (hp_next h + 1) in
  ((exists i, In i node_allocs /\ first_refused h i) /\ exists h', run = Ok ((-1)%Z, h') /\ no_arrays h h') \/
  ((exists i, In i text_allocs /\ first_refused h i) /\ run = UB NullDeref) \/
  (lists_fit h /\ exists h', run = Ok (0%Z, h') /\ both_slots h h' (cert_kept dv r h) (key_kept dv h)).
Proof.
  intros nn dv h r W TX DO ER run. destruct (caller_arrays_arrs h W) as (A & N & O).
  destruct (gen_end nn dv h (caller_arrays h) (hp_next h) (hp_next h + 1) r DO TX ER A) as [((i & Hi & R1 & R2) & h' & E & A')|[((i & Hi & R1 & R2) & E)|(PF & h' & bc & zc & bk & zk & E & A' & Mk & Mc)]]; rewrite ?N, ?O in *.
  - left. split; [exists i; split; [exact Hi|]; split; assumption|]. exists h'. split; [exact E|]. apply arrs_none. exact A'.
  - right. left. split; [exists i; split; [exact Hi|]; split; assumption|exact E].
  - right. right. split; [exact PF|]. exists h'. split; [exact E|]. replace (hp_next h + 2 + 12) with (hp_next h + 14) in * by lia. replace (hp_next h + 2 + 13) with (hp_next h + 15) in * by lia. eapply arrs_both; eassumption.
Qed.

Lemma gen_crash : forall nn dv h, heap_wf h -> texts_at nn h -> device_ok dv ->
  ((exists k, full_generate_sign_cert nn dv (caller_arrays h) (hp_next h) (hp_next h + 1) = UB k) <-> dv_random dv <> None /\ exists i, In i text_allocs /\ first_refused h i).
Proof.
  intros nn dv h W TX DO. destruct (dv_random dv) as [r|] eqn:ER.
  2:{ split; [|intros [Q _]; congruence]. intros [k E]. unfold full_generate_sign_cert in E. rewrite ER in E. discriminate. }
  destruct (gen_cases nn dv h r W TX DO ER) as [((i & Hi & Ri) & h' & E & _)|[(H & E)|(F & h' & E & _)]]; rewrite E.
  - split; [intros [k Q]; discriminate|]. intros (_ & j & Hj & Rj). exfalso. apply (allocs_apart i Hi). rewrite (first_one h i j Ri Rj); [exact Hj|apply allocs_range; auto|apply allocs_range; auto].
  - split; [intros _; split; [discriminate|exact H]|intros _; eexists; reflexivity].
  - split; [intros [k Q]; discriminate|]. intros (_ & j & Hj & Rj). destruct (allocs_range j (or_intror Hj)). exfalso. eapply first_fit; eassumption.
Qed.
Lemma gen_error : forall nn dv h, heap_wf h -> texts_at nn h -> device_ok dv ->
  ((exists h', full_generate_sign_cert nn dv (caller_arrays h) (hp_next h) (hp_next h + 1) = Ok ((-1)%Z, h')) <-> dv_random dv = None \/ exists i, In i node_allocs /\ first_refused h i).
Proof.
  intros nn dv h W TX DO. destruct (dv_random dv) as [r|] eqn:ER.
  2:{ split; [auto|]. intros _. unfold full_generate_sign_cert. rewrite ER. eexists. reflexivity. }
  destruct (gen_cases nn dv h r W TX DO ER) as [(H & h' & E & _)|[((i & Hi & Ri) & E)|(F & h' & E & _)]]; rewrite E.
  - split; [auto|intros _; eexists; reflexivity].
  - split; [intros [k Q]; discriminate|]. intros [Q|(j & Hj & Rj)]; [discriminate|]. exfalso. apply (allocs_apart j Hj). rewrite (first_one h j i Rj Ri); [exact Hi|apply allocs_range; auto|apply allocs_range; auto].
  - split; [intros [k Q]; discriminate|]. intros [Q|(j & Hj & Rj)]; [discriminate|]. destruct (allocs_range j (or_introl Hj)). exfalso. eapply first_fit; eassumption.
Qed.
Lemma gen_result : forall nn dv h z h', heap_wf h -> texts_at nn h -> device_ok dv -> full_generate_sign_cert nn dv (caller_arrays h) (hp_next h) (hp_next h + 1) = Ok (z, h') ->
  (z = (-1)%Z /\ no_arrays h h') \/ (z = 0%Z /\ exists r, dv_random dv = Some r /\ both_slots h h' (cert_kept dv r h) (key_kept dv h)).
Proof.
  intros nn dv h z h' W TX DO E. destruct (dv_random dv) as [r|] eqn:ER.
  2:{ left. unfold full_generate_sign_cert in E. rewrite ER in E. injection E as <- <-. split; [reflexivity|]. apply arrs_none. apply caller_arrays_arrs. exact W. }
  destruct (gen_cases nn dv h r W TX DO ER) as [(H & h1 & E1 & N)|[(_ & E1)|(F & h1 & E1 & N)]]; rewrite E in E1; [|discriminate|]; injection E1 as -> ->; [left; auto|right; eauto].
Qed.

(** *** Cases *)
Definition short_heap (l : list N) : heap := mk_heap 17 (hp_cell case_heap) (fun a => existsb (N.eqb a) l).
Lemma short_setting : forall l, heap_wf (short_heap l) /\ texts_at case_text (short_heap l) /\ device_ok case_device.
Proof. intros l. destruct (case_setting _ (or_introl eq_refl)) as (_ & _ & W & _ & _ & _ & _ & _ & _ & D & T & _). split; [exact W|]. split; [exact T|exact D]. Qed.
Lemma gen_refuted : exists nn dv h, heap_wf h /\ texts_at nn h /\ device_ok dv /\ full_generate_sign_cert nn dv (caller_arrays h) (hp_next h) (hp_next h + 1) = UB NullDeref.
Proof. exists case_text, case_device, (short_heap [23]). destruct (short_setting [23]) as (W & T & D). split; [exact W|]. split; [exact T|]. split; [exact D|]. vm_compute. reflexivity. Qed.
Lemma gen_silent : exists nn dv h key h', heap_wf h /\ texts_at nn h /\ device_ok dv /\ dv_key dv = Some key /\
  full_generate_sign_cert nn dv (caller_arrays h) (hp_next h) (hp_next h + 1) = Ok (0%Z, h') /\ both_slots h h' None None.
Proof.
  exists case_text, case_device, (short_heap [31]), [1; 2]. destruct (short_setting [31]) as (W & T & D). destruct (gen_cases case_text case_device (short_heap [31]) rnd1 W T D eq_refl) as [((i & Hi & Ri & _) & _)|[((i & Hi & Ri & _) & _)|(F & h' & E & B)]].
  - exfalso. destruct Hi as [<-|[<-|[<-|[<-|[<-|[]]]]]]; vm_compute in Ri; discriminate.
  - exfalso. destruct Hi as [<-|[<-|[<-|[<-|[<-|[<-|[]]]]]]]; vm_compute in Ri; discriminate.
  - exists h'. split; [exact W|]. split; [exact T|]. split; [exact D|]. split; [reflexivity|]. split; [exact E|exact B].
Qed.
