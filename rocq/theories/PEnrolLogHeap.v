(** Proofs about the memory of the registrar's enrolment log. *)
From Coq Require Import Permutation.
From Verif Require Import Base PBase MOs MHeap MArray MHandlers MEnrolLog MEnrolLogHeap SHeap SArray SEnrolLog SEnrolLogHeap PHeap PArray PBlocks PKlist PRegistrar PAcquire PEnrolLog PEnrolLog2.
Open Scope N_scope.

Definition row : Type := N * list (bytes * bytes) * list N.
Definition kst (base : N) (h : heap) (L : list row) : Prop :=
  only base h (fun a => In a (flat_map snd L)) /\ NoDup (flat_map snd L) /\ Forall (fun r => klist h (fst (fst r)) (snd (fst r)) (snd r)) L /\
  (forall a, In a (flat_map snd L) -> base <= a).
(** [h'] comes after [h]. *)
Definition later (base : N) (h h' : heap) : Prop := kept base h h' /\ hp_oom h' = hp_oom h.
Lemma later_refl : forall base h, later base h h.
Proof. intros. split; [intros a _; reflexivity|reflexivity]. Qed.
Lemma later_trans : forall base a b c, later base a b -> later base b c -> later base a c.
Proof. intros base a b c [K1 O1] [K2 O2]. split; [intros x Hx; rewrite K2, K1 by exact Hx; reflexivity|congruence]. Qed.
Lemma later_plenty : forall base a b, later base a b -> plenty a -> plenty b.
Proof. intros base a b [_ O] PL x. rewrite O. apply PL. Qed.

Lemma kst_init : forall h, heap_wf h -> kst (hp_next h) h [].
Proof. intros h W. split; [exact (only_init h W)|]. split; [constructor|]. split; [constructor|intros a []]. Qed.
Lemma kst_perm : forall base h L L', Permutation L L' -> kst base h L -> kst base h L'.
Proof.
  intros base h L L' Pm (O & N & F & B). pose proof (Permutation_flat_map snd Pm) as Q. split; [|split; [|split]].
  - eapply only_iff; [exact O|]. intros a _. cbn beta. split; [apply Permutation_in; exact Q|apply Permutation_in; apply Permutation_sym; exact Q].
  - eapply Permutation_NoDup; eassumption.
  - eapply Permutation_Forall; eassumption.
  - intros a Ha. apply B. eapply Permutation_in; [apply Permutation_sym; exact Q|exact Ha].
Qed.
Lemma kst_rows : forall h h' (L : list row), Forall (fun r => klist h (fst (fst r)) (snd (fst r)) (snd r)) L -> (forall a, In a (flat_map snd L) -> hp_cell h' a = hp_cell h a) ->
  Forall (fun r => klist h' (fst (fst r)) (snd (fst r)) (snd r)) L.
Proof.
  intros h h' L F E. induction F as [|r L K F IH]; [constructor|]. constructor.
  - eapply klist_frame; [exact K|]. intros a Ha. apply E. apply in_or_app. left. exact Ha.
  - apply IH. intros a Ha. apply E. apply in_or_app. right. exact Ha.
Qed.
Lemma nodup_tail : forall (a b : list N), NoDup (a ++ b) -> NoDup b.
Proof. induction a as [|x a IH]; intros b H; [exact H|]. apply IH. inversion H; assumption. Qed.
Lemma kst_leak : forall base h, kst base h [] -> no_leak base h.
Proof. intros base h (O & _). apply only_leak. exact O. Qed.

Lemma kst_new : forall base h L, kst base h L -> exists H h1, init_keyvalue_list h = Ok (H, h1) /\ later base h h1 /\
  ((H = 0 /\ hp_oom h (hp_next h) = true /\ kst base h1 L) \/ (H <> 0 /\ kst base h1 ((H, [], [H]) :: L))).
Proof.
  intros base h L (O & N & F & B). pose proof O as (W & Bn & Lv). destruct (init_klist h W) as (H & h1 & E & W1 & Hn & Ho & Cs). exists H, h1. split; [exact E|].
  assert (LV : forall a, In a (flat_map snd L) -> is_live h a) by (intros a Ha; apply Lv; [apply B|]; exact Ha).
  destruct Cs as [(-> & Oo & Cx)|(HH & H0 & Oo & KL & Cx)].
  - split; [split; [intros a _; apply Cx|exact Ho]|]. left. split; [reflexivity|]. split; [exact Oo|]. split; [eapply only_same; [exact O|exact W1|lia|auto]|]. split; [exact N|]. split; [|exact B]. eapply kst_rows; [exact F|auto].
  - assert (HF : ~ In H (flat_map snd L)). { intros Q. pose proof (live_below _ _ W (LV _ Q)). lia. }
    split; [split; [intros a Ha; apply Cx; lia|exact Ho]|]. right. split; [exact H0|]. split; [|split; [|split]].
    + split; [exact W1|]. split; [lia|]. intros a Ha. cbn [flat_map snd app In]. destruct (N.eq_dec a H) as [->|Q].
      * split; [auto|]. intros _. eapply klist_live; [exact KL|left; reflexivity].
      * unfold is_live. rewrite Cx by exact Q. rewrite (Lv a Ha). split; [auto|intros [X|X]; [congruence|exact X]].
    + cbn [flat_map snd app]. constructor; assumption.
    + constructor; [exact KL|]. eapply kst_rows; [exact F|]. intros a Ha. apply Cx. intros ->. contradiction.
    + intros a [<-|Ha]; [lia|apply B; exact Ha].
Qed.

Lemma kst_free : forall base h H items F L, kst base h ((H, items, F) :: L) -> exists h', free_keyvalue_list h H = Ok h' /\ later base h h' /\ kst base h' L.
Proof.
  intros base h H items F L (O & N & Fr & B). pose proof O as (W & Bn & Lv). pose proof (Forall_inv Fr) as KL. cbn [fst snd] in KL. destruct (free_klist h H items F W KL) as (h' & E & [R1 R2] & W' & Hn & Ho).
  cbn [flat_map snd] in *. exists h'. split; [exact E|]. split; [split; [|exact Ho]|].
  - intros a Ha. apply R2. intros Q. assert (base <= a) by (apply B; apply in_or_app; left; exact Q). lia.
  - assert (DJ : forall a, In a (flat_map snd L) -> ~ In a F).
    { intros a Ha Q. apply in_split in Q. destruct Q as (u & v & ->). rewrite <- app_assoc in N. cbn [app] in N. apply NoDup_remove_2 in N. apply N. apply in_or_app. right. apply in_or_app. right. exact Ha. }
    split; [|split; [|split]].
    + split; [exact W'|]. split; [lia|]. intros a Ha. destruct (in_dec N.eq_dec a F) as [Q|Q].
      * destruct (R1 a Q) as [_ C]. split; [intros [y Hy]; congruence|intros X; exfalso; exact (DJ a X Q)].
      * unfold is_live. rewrite R2 by exact Q. rewrite (Lv a Ha). rewrite in_app_iff. tauto.
    + exact (nodup_tail _ _ N).
    + eapply kst_rows; [exact (Forall_inv_tail Fr)|]. intros a Ha. apply R2. apply DJ. exact Ha.
    + intros a Ha. apply B. apply in_or_app. right. exact Ha.
Qed.

(** The texts fit into memory. *)
Lemma c_string_nul : forall s, c_string (s ++ [0]) = c_string s.
Proof. induction s as [|b s IH]; [reflexivity|]. cbn [app c_string]. destruct (b =? 0); [reflexivity|]. rewrite IH. reflexivity. Qed.

(** One entry: the text, the push, the release of the text. *)
Definition put_entry (h : heap) (lst key : N) (s : bytes) : outcome (Z * heap) :=
  let (str, h) := alloc h (Buf (s ++ [0])) in
  if str =? 0 then Ok ((-1)%Z, h)
  else obind (push_keyvalue_list h lst key str) (fun r => obind (sys_free (snd r) str) (fun h => if (fst r <? 0)%Z then Ok ((-1)%Z, h) else Ok (0%Z, h))).
Lemma kst_entry : forall base h H items F L key n s, kst base h ((H, items, F) :: L) -> key < base -> hp_cell h key = Live (Buf (n ++ [0])) -> c_string n = n -> short_text n -> short_text s ->
  (~ plenty h /\ put_entry h H key s = UB NullDeref) \/
  (~ plenty h /\ exists h', put_entry h H key s = Ok ((-1)%Z, h') /\ later base h h' /\ kst base h' ((H, items, F) :: L)) \/
  (exists h' F', put_entry h H key s = Ok (0%Z, h') /\ later base h h' /\ kst base h' ((H, items ++ [(n, c_string s)], F') :: L)).
Proof.
  intros base h H items F L key n s KS Hk Ck Cn Sn Ss. pose proof KS as (O & N & Fr & B). pose proof (Forall_inv Fr) as KL. cbn [fst snd] in KL. cbn [flat_map snd] in O, N, B.
  destruct (only_alloc base h _ (Buf (s ++ [0])) O) as (str & h1 & E & Ho1 & Hn1 & [(-> & Oo & Cx & O1)|(Es & S0 & Sb & Oo & Cs & Cf & Cx & O1)]); unfold put_entry; rewrite E.
  { cbn [N.eqb]. right. left. split; [intros PL; rewrite PL in Oo; discriminate|]. exists h1. split; [reflexivity|]. split; [split; [intros a _; apply Cx|exact Ho1]|].
    split; [exact O1|]. split; [exact N|]. split; [eapply kst_rows; [exact Fr|auto]|exact B]. }
  rewrite (proj2 (N.eqb_neq _ _) S0). pose proof O as (W & _ & Lv). pose proof O1 as (W1 & _ & Lv1).
  assert (SF : ~ In str (F ++ flat_map snd L)). { intros Q. pose proof (B _ Q) as Q1. apply (Lv _ Q1) in Q. pose proof (live_below _ _ W Q). lia. }
  assert (KL1 : klist h1 H items F) by (eapply klist_frame; [exact KL|]; intros a Ha; apply Cx; intros ->; apply SF; apply in_or_app; left; exact Ha).
  assert (K0 : key <> 0) by (intros ->; destruct W as (_ & Q & _); congruence).
  assert (Ck1 : hp_cell h1 key = Live (Buf (n ++ [0]))) by (rewrite Cx by lia; exact Ck).
  assert (STR : forall x, short_text x -> stringy (x ++ [0])). { intros x Hx. split; [apply in_or_app; right; left; reflexivity|]. rewrite c_string_nul. exact Hx. }
  assert (NP : forall a, hp_oom h1 a = true -> ~ plenty h) by (intros a Q PL; rewrite Ho1, PL in Q; discriminate).
  destruct (push_klist h1 H items F key (n ++ [0]) str (s ++ [0]) W1 KL1 K0 S0 Ck1 (STR n Sn) Cs (STR s Ss)) as [(Oo2 & h2 & E2 & W2 & Hn2 & Ho2 & Cy)|[(Oo2 & E2)|(Oo2 & h2 & F' & E2 & W2 & Hn2 & Ho2 & KL2 & PF & Cy)]]; rewrite E2; cbn [obind fst snd].
  - right. left. split; [eapply NP; exact Oo2|]. assert (L2 : is_live h2 str) by (eexists; rewrite Cy; exact Cs). destruct (free_live h2 str W2 L2) as [E3 W3]. rewrite E3. cbn [obind]. change ((-1 <? 0)%Z) with true. cbv iota.
    eexists. split; [reflexivity|].
    assert (CX : forall a, a <> str -> hp_cell (put h2 str Freed) a = hp_cell h a) by (intros a Q; rewrite put_other by exact Q; rewrite Cy; apply Cx; exact Q).
    split; [split; [intros a Ha; apply CX; lia|cbn [put hp_oom]; congruence]|]. split; [|split; [exact N|split; [|exact B]]].
    + eapply only_iff; [apply (only_freed base h2 (fun a => In a (F ++ flat_map snd L) \/ a = str) str); [|exact L2]|].
      * eapply only_same; [exact O1|exact W2|lia|]. intros a _. apply Cy.
      * intros a _. cbn beta. cbn [flat_map snd]. split; [intros [[Q|Q] Q2]; [exact Q|contradiction]|intros Q; split; [left; exact Q|intros ->; contradiction]].
    + eapply kst_rows; [exact Fr|]. intros a Ha. apply CX. intros ->. contradiction.
  - left. split; [destruct Oo2 as [Q|Q]; eapply NP; exact Q|reflexivity].
  - right. right. remember (hp_next h1) as x eqn:Ex.
    assert (SN : str <> x /\ str <> x + 1 /\ str <> x + 2) by lia. destruct SN as (SN1 & SN2 & SN3).
    assert (C2 : hp_cell h2 str = Live (Buf (s ++ [0]))). { rewrite Cy; [exact Cs| |exact SN1|exact SN2|exact SN3]. intros Q. apply SF. apply in_or_app. left. exact Q. }
    assert (L2 : is_live h2 str) by (eexists; exact C2). destruct (free_live h2 str W2 L2) as [E3 W3]. rewrite E3. cbn [obind]. change ((0 <? 0)%Z) with false. cbv iota.
    eexists. exists F'. split; [reflexivity|].
    assert (FN : forall a, In a F' <-> In a F \/ a = x \/ a = x + 1 \/ a = x + 2).
    { intros a. split; [intros Q; apply (Permutation_in _ PF) in Q|intros Q; apply (Permutation_in _ (Permutation_sym PF))]; rewrite in_app_iff in *; cbn [In] in *; intuition. }
    assert (OLD : forall a, In a (F ++ flat_map snd L) -> a < x). { intros a Q. pose proof (B _ Q) as Q1. apply (Lv _ Q1) in Q. pose proof (live_below _ _ W Q). lia. }
    assert (SF' : ~ In str F') by (rewrite FN; intros [Q|Q]; [apply SF; apply in_or_app; left; exact Q|lia]).
    assert (CX : forall a, ~ In a F' -> a <> str -> hp_cell (put h2 str Freed) a = hp_cell h a).
    { intros a Q Q2. rewrite FN in Q. rewrite put_other by exact Q2. rewrite Cy; [apply Cx; exact Q2| | | |]; intros X; apply Q; auto. }
    assert (DJ : forall a, In a (flat_map snd L) -> ~ In a F').
    { intros a Ha Q. apply FN in Q. destruct Q as [Q|Q].
      - apply in_split in Q. destruct Q as (u & v & Ef). rewrite Ef, <- app_assoc in N. cbn [app] in N. apply NoDup_remove_2 in N. apply N. apply in_or_app. right. apply in_or_app. right. exact Ha.
      - pose proof (OLD a ltac:(apply in_or_app; right; exact Ha)). lia. }
    split; [split; [|cbn [put hp_oom]; congruence]|split; [|split; [|split]]].
    + intros a Ha. destruct O as (_ & Bn & _). apply CX; [|lia]. rewrite FN. intros [Q|Q]; [|lia]. pose proof (B a ltac:(apply in_or_app; left; exact Q)). lia.
    + split; [exact W3|]. split; [cbn [put hp_next]; destruct O as (_ & Bn & _); lia|]. intros a Ha. cbn [flat_map snd]. rewrite in_app_iff. destruct (N.eq_dec a str) as [->|Q].
      { unfold is_live. rewrite put_same. split; [intros [y Hy]; discriminate|]. intros [X|X]; [contradiction|]. exfalso. apply SF. apply in_or_app. right. exact X. }
      unfold is_live. rewrite put_other by exact Q. fold (is_live h2 a). destruct (in_dec N.eq_dec a F') as [X|X].
      { split; [auto|]. intros _. eapply klist_live; eassumption. }
      assert (Y : hp_cell h2 a = hp_cell h a). { specialize (CX a X Q). rewrite put_other in CX by exact Q. exact CX. }
      unfold is_live. rewrite Y. rewrite (Lv a Ha). rewrite in_app_iff. split; [intros [Z|Z]; [exfalso; apply X; apply FN; auto|auto]|intros [Z|Z]; [contradiction|auto]].
    + cbn [flat_map snd]. eapply Permutation_NoDup; [apply Permutation_app_tail; apply Permutation_sym; exact PF|]. eapply Permutation_NoDup with (l := [x; x + 1; x + 2] ++ (F ++ flat_map snd L)).
      { rewrite app_assoc. apply Permutation_app_tail. apply Permutation_app_comm. }
      cbn [app]. assert (NX : forall y, x <= y -> ~ In y (F ++ flat_map snd L)) by (intros y Hy Q; specialize (OLD _ Q); lia).
      constructor; [intros [Q|[Q|Q]]; [lia|lia|]; exact (NX x ltac:(lia) Q)|]. constructor; [intros [Q|Q]; [lia|]; exact (NX (x + 1) ltac:(lia) Q)|]. constructor; [intros Q; exact (NX (x + 2) ltac:(lia) Q)|]. exact N.
    + constructor; cbn [fst snd].
      * rewrite <- (c_string_nul s). rewrite <- Cn at 1. rewrite <- (c_string_nul n). eapply klist_frame; [exact KL2|]. intros a Ha. apply put_other. intros ->. contradiction.
      * eapply kst_rows; [exact (Forall_inv_tail Fr)|]. intros a Ha. apply CX; [apply DJ; exact Ha|]. intros ->. apply SF. apply in_or_app. right. exact Ha.
    + intros a Ha. cbn [flat_map snd] in Ha. apply in_app_or in Ha. destruct Ha as [Ha|Ha]; [|apply B; apply in_or_app; right; exact Ha]. apply FN in Ha. destruct O as (_ & Bn & _). destruct Ha as [Ha|Ha]; [apply B; apply in_or_app; left; exact Ha|lia].
Qed.

Lemma names_later : forall base nn h h', names_at base nn h -> later base h h' -> names_at base nn h'.
Proof. intros base nn h h' H [K _] n Hn. destruct (H n Hn) as [A B]. split; [exact A|]. rewrite K by exact A. exact B. Qed.
Lemma name_text : forall n, In n NNAMES -> c_string n = n /\ short_text n.
Proof.
  intros n Hn. assert (Q : forallb (fun n => beqb (c_string n) n && (blen (c_string n) <? SIZE_MAX)) NNAMES = true) by (vm_compute; reflexivity).
  rewrite forallb_forall in Q. specialize (Q n Hn). apply andb_prop in Q. destruct Q as [Q1 Q2]. apply beqb_eq in Q1. split; [exact Q1|]. apply N.ltb_lt. exact Q2.
Qed.

Lemma kv_step : forall nn entry n r h lst s, entry n = Some (Some s) ->
  h_get_x509_keyvalue nn entry (n :: r) h lst = obind (put_entry h lst (nn n) s) (fun x => if (fst x <? 0)%Z then Ok ((-1)%Z, snd x) else h_get_x509_keyvalue nn entry r (snd x) lst).
Proof.
  intros nn entry n r h lst s E. cbn [h_get_x509_keyvalue]. rewrite E. unfold put_entry. destruct (alloc h (Buf (s ++ [0]))) as [str h1]. destruct (str =? 0); [reflexivity|].
  destruct (push_keyvalue_list h1 lst (nn n) str) as [[z h2]|k]; cbn [obind fst snd]; [|reflexivity]. destruct (sys_free h2 str) as [h3|k]; cbn [obind]; [|reflexivity]. destruct (z <? 0)%Z; reflexivity.
Qed.

Lemma kst_fill : forall base nn entry names h H items F L, (forall n, In n names -> In n NNAMES) -> kst base h ((H, items, F) :: L) -> names_at base nn h -> short_entries entry ->
  (~ plenty h /\ h_get_x509_keyvalue nn entry names h H = UB NullDeref) \/
  (exists h' items' F', h_get_x509_keyvalue nn entry names h H = Ok ((-1)%Z, h') /\ later base h h' /\ kst base h' ((H, items', F') :: L) /\ (plenty h -> get_x509_keyvalue entry names = Ok None)) \/
  (exists h' l F', h_get_x509_keyvalue nn entry names h H = Ok (0%Z, h') /\ later base h h' /\ kst base h' ((H, items ++ l, F') :: L) /\ get_x509_keyvalue entry names = Ok (Some l)).
Proof.
  intros base nn entry. induction names as [|n names IH]; intros h H items F L Sub KS NA SE.
  { right. right. exists h, [], F. split; [reflexivity|]. split; [apply later_refl|]. rewrite app_nil_r. auto. }
  assert (Hn : In n NNAMES) by (apply Sub; left; reflexivity). assert (Sub' : forall m, In m names -> In m NNAMES) by (intros m Hm; apply Sub; right; exact Hm).
  destruct (entry n) as [[s|]|] eqn:En.
  - rewrite (kv_step _ _ _ _ _ _ _ En). destruct (NA n Hn) as [A1 A2], (name_text n Hn) as [T1 T2].
    destruct (kst_entry base h H items F L (nn n) n s KS A1 A2 T1 T2 (SE n s Hn En)) as [(NP & E)|[(NP & h1 & E & LT & K1)|(h1 & F1 & E & LT & K1)]]; rewrite E; cbn [obind fst snd].
    + left. auto.
    + change ((-1 <? 0)%Z) with true. cbv iota. right. left. exists h1, items, F. split; [reflexivity|]. split; [exact LT|]. split; [exact K1|]. intros PL. contradiction.
    + change ((0 <? 0)%Z) with false. cbv iota. cbn [get_x509_keyvalue]. rewrite En, c_str_ok. cbn [obind].
      destruct (IH h1 H (items ++ [(n, c_string s)]) F1 L Sub' K1 (names_later _ _ _ _ NA LT) SE) as [(NP & E2)|[(h2 & it2 & F2 & E2 & LT2 & K2 & G)|(h2 & l & F2 & E2 & LT2 & K2 & G)]]; rewrite E2.
      * left. split; [|reflexivity]. intros PL. apply NP. eapply later_plenty; eassumption.
      * right. left. exists h2, it2, F2. split; [reflexivity|]. split; [eapply later_trans; eassumption|]. split; [exact K2|]. intros PL. rewrite G by (eapply later_plenty; eassumption). reflexivity.
      * right. right. exists h2, ((n, c_string s) :: l), F2. split; [reflexivity|]. split; [eapply later_trans; eassumption|]. rewrite <- app_assoc in K2. cbn [app] in K2. split; [exact K2|]. rewrite G. reflexivity.
  - cbn [h_get_x509_keyvalue get_x509_keyvalue]. rewrite En. exact (IH h H items F L Sub' KS NA SE).
  - cbn [h_get_x509_keyvalue get_x509_keyvalue]. rewrite En. right. left. exists h, items, F. split; [reflexivity|]. split; [apply later_refl|]. auto.
Qed.

Lemma kst_meta : forall base nn cert h I S FI FS L, kst base h ((S, [], FS) :: (I, [], FI) :: L) -> names_at base nn h -> (forall v, cert = Some v -> short_view v) ->
  (~ plenty h /\ h_getcert_meta nn cert h I S = UB NullDeref) \/
  (exists h' it FI' it2 FS', h_getcert_meta nn cert h I S = Ok ((-1)%Z, h') /\ later base h h' /\ kst base h' ((S, it2, FS') :: (I, it, FI') :: L) /\ (plenty h -> crypto_getcert_meta cert = Ok None)) \/
  (exists h' li FI' ls FS', h_getcert_meta nn cert h I S = Ok (0%Z, h') /\ later base h h' /\ kst base h' ((S, ls, FS') :: (I, li, FI') :: L) /\ crypto_getcert_meta cert = Ok (Some (li, ls))).
Proof.
  intros base nn cert h I S FI FS L KS NA SV. destruct cert as [v|]; cbn [h_getcert_meta crypto_getcert_meta].
  2:{ right. left. exists h, [], FI, [], FS. split; [reflexivity|]. split; [apply later_refl|]. auto. }
  destruct (SV v eq_refl) as [SI SS].
  assert (SW : forall h' a b, kst base h' (a :: b :: L) -> kst base h' (b :: a :: L)) by (intros h' a b Q; eapply kst_perm; [apply perm_swap|exact Q]).
  apply SW in KS.
  destruct (kst_fill base nn (cv_issuer_entry v) NNAMES h I [] FI _ (fun _ Q => Q) KS NA SI) as [(NP & E)|[(h1 & it1 & F1 & E & LT & K1 & G)|(h1 & l1 & F1 & E & LT & K1 & G)]]; rewrite E; cbn [obind].
  - left. auto.
  - change ((-1 <? 0)%Z) with true. cbv iota. right. left. exists h1, it1, F1, [], FS. split; [reflexivity|]. split; [exact LT|]. split; [apply SW; exact K1|]. intros PL. rewrite (G PL). reflexivity.
  - change ((0 <? 0)%Z) with false. cbv iota. rewrite G. cbn [obind]. apply SW in K1. cbn [app] in K1.
    destruct (kst_fill base nn (cv_subject_entry v) NNAMES h1 S [] FS _ (fun _ Q => Q) K1 (names_later _ _ _ _ NA LT) SS) as [(NP & E2)|[(h2 & it2 & F2 & E2 & LT2 & K2 & G2)|(h2 & l2 & F2 & E2 & LT2 & K2 & G2)]]; rewrite E2; cbn [obind].
    + left. split; [|reflexivity]. intros PL. apply NP. eapply later_plenty; eassumption.
    + change ((-1 <? 0)%Z) with true. cbv iota. right. left. exists h2, l1, F1, it2, F2. split; [reflexivity|]. split; [eapply later_trans; eassumption|]. split; [exact K2|]. intros PL. rewrite G2 by (eapply later_plenty; eassumption). reflexivity.
    + change ((0 <? 0)%Z) with false. cbv iota. right. right. exists h2, l1, F1, l2, F2. split; [reflexivity|]. split; [eapply later_trans; eassumption|]. split; [exact K2|]. rewrite G2. reflexivity.
Qed.

Lemma kst_free_all : forall base (R : list row) h L, kst base h (R ++ L) -> exists h', free_lists h (map (fun r => fst (fst r)) R) = Ok h' /\ later base h h' /\ kst base h' L.
Proof.
  intros base. induction R as [|[[H it] F] R IH]; intros h L KS; cbn [map free_lists fst]; [exists h; split; [reflexivity|]; split; [apply later_refl|exact KS]|].
  destruct (kst_free base h H it F (R ++ L) KS) as (h1 & E & LT & K1). rewrite E. cbn [obind]. destruct (IH h1 L K1) as (h2 & E2 & LT2 & K2). exists h2. split; [exact E2|]. split; [eapply later_trans; eassumption|exact K2].
Qed.
(** The file. *)
Lemma kst_alloc : forall base h L b, kst base h L -> exists a h1, alloc h b = (a, h1) /\ later base h h1 /\
  ((a = 0 /\ ~ plenty h /\ kst base h1 L) \/
   (a <> 0 /\ Forall (fun r => klist h1 (fst (fst r)) (snd (fst r)) (snd r)) L /\ heap_wf h1 /\ exists h2, sys_free h1 a = Ok h2 /\ later base h h2 /\ kst base h2 L)).
Proof.
  intros base h L b (O & N & Fr & B). destruct (only_alloc base h _ b O) as (a & h1 & E & Ho & Hn & Cs). exists a, h1. split; [exact E|]. pose proof O as (W & Bn & Lv).
  destruct Cs as [(-> & Oo & Cx & O1)|(Ea & A0 & Ab & Oo & Ca & Cf & Cx & O1)].
  - split; [split; [intros x _; apply Cx|exact Ho]|]. left. split; [reflexivity|]. split; [intros PL; rewrite PL in Oo; discriminate|]. split; [exact O1|]. split; [exact N|]. split; [eapply kst_rows; [exact Fr|auto]|exact B].
  - assert (AF : ~ In a (flat_map snd L)). { intros Q. pose proof (B _ Q) as Q1. apply (Lv _ Q1) in Q. pose proof (live_below _ _ W Q). lia. }
    split; [split; [intros x Hx; apply Cx; lia|exact Ho]|]. right. split; [exact A0|].
    assert (R1 : Forall (fun r => klist h1 (fst (fst r)) (snd (fst r)) (snd r)) L) by (eapply kst_rows; [exact Fr|]; intros x Hx; apply Cx; intros ->; contradiction).
    split; [exact R1|]. split; [apply O1|]. assert (La : is_live h1 a) by (eexists; exact Ca). destruct (free_live h1 a (proj1 O1) La) as [E3 W3]. exists (put h1 a Freed). split; [exact E3|].
    split; [split; [intros x Hx; rewrite put_other by lia; apply Cx; lia|cbn [put hp_oom]; exact Ho]|]. split; [|split; [exact N|split; [|exact B]]].
    + eapply only_iff; [apply (only_freed base h1 _ a O1 La)|]. intros x _. cbn beta. split; [intros [[Q|Q] Q2]; [exact Q|contradiction]|intros Q; split; [left; exact Q|intros ->; contradiction]].
    + eapply kst_rows; [exact R1|]. intros x Hx. apply put_other. intros ->. contradiction.
Qed.

(** C92. *)
Definition logged (nn : bytes -> N) (now : Z) (opens : bool) (log : bytes) (icert : option cert_seen) (lcert : cert_seen) (h : heap) (r : outcome (bytes * heap)) : Prop :=
  (~ plenty h /\ r = UB NullDeref) \/
  exists log' h', r = Ok (log', h') /\ kept (hp_next h) h h' /\ (log' = log \/ save_to_log now opens log icert lcert = Ok log') /\
    ((no_leak (hp_next h) h' /\ (plenty h -> save_to_log now opens log icert lcert = Ok log')) \/
     (~ plenty h /\ log' = log /\ exists x, forall a, hp_next h <= a -> (is_live h' a <-> a = x))).

Definition fresh_row (x : N) : list row := match x with 0 => [] | _ => [(x, [], [x])] end.
Lemma fresh_some : forall x, x <> 0 -> fresh_row x = [(x, [], [x])].
Proof. intros x H. destruct x; [congruence|reflexivity]. Qed.

Lemma save_mem : forall nn now opens log icert lcert h, heap_wf h -> names_at (hp_next h) nn h -> (forall c, icert = Some c -> short_view (cs_view c)) -> short_view (cs_view lcert) ->
  logged nn now opens log icert lcert h (h_save_to_log nn now opens log icert lcert h).
Proof.
  intros nn now opens log icert lcert h W NA SI SL. unfold h_save_to_log. remember (hp_next h) as base eqn:EB.
  assert (K0 : kst base h []) by (rewrite EB; apply kst_init; exact W).
  assert (DONE : forall log' h', later base h h' -> kst base h' [] -> (log' = log \/ save_to_log now opens log icert lcert = Ok log') -> (plenty h -> save_to_log now opens log icert lcert = Ok log') -> logged nn now opens log icert lcert h (Ok (log', h'))).
  { intros log' h' [KK _] KS D PL. right. exists log', h'. rewrite <- EB. split; [reflexivity|]. split; [exact KK|]. split; [exact D|]. left. split; [apply kst_leak; exact KS|exact PL]. }
  assert (LEAK : forall h' x, later base h h' -> kst base h' [(x, [], [x])] -> ~ plenty h -> logged nn now opens log icert lcert h (Ok (log, h'))).
  { intros h' x [KK _] (O & _) NP. right. exists log, h'. rewrite <- EB. split; [reflexivity|]. split; [exact KK|]. split; [left; reflexivity|]. right. split; [exact NP|]. split; [reflexivity|]. exists x. destruct O as (_ & _ & Lv). intros a Ha. rewrite (Lv a Ha). cbn. intuition. }
  assert (NPO : forall h' x, later base h h' -> hp_oom h' x = true -> ~ plenty h) by (intros h' x [_ Q] Q2 PL; rewrite Q, PL in Q2; discriminate).
  destruct (kst_new base h [] K0) as (I & h1 & E1 & L1 & C1). rewrite E1. cbn [obind].
  destruct (kst_new base h1 (fresh_row I)) as (S & h2 & E2 & L2 & C2). { destruct C1 as [(-> & _ & K)|(I0 & K)]; [exact K|]. rewrite (fresh_some _ I0). exact K. }
  rewrite E2. cbn [obind]. pose proof (later_trans _ _ _ _ L1 L2) as L02.
  destruct C1 as [(-> & O1 & K1)|(I0 & K1)].
  { cbn [N.eqb orb]. pose proof (NPO _ _ (later_refl base h) O1) as NP. destruct C2 as [(-> & _ & K2)|(S0 & K2)]; [apply DONE; [exact L02|exact K2|left; reflexivity|intros PL; contradiction]|eapply LEAK; [exact L02|exact K2|exact NP]]. }
  rewrite (proj2 (N.eqb_neq _ _) I0). rewrite (fresh_some _ I0) in C2.
  destruct C2 as [(-> & O2 & K2)|(S0 & K2)].
  { cbn [N.eqb orb]. eapply LEAK; [exact L02|exact K2|eapply NPO; [exact L1|exact O2]]. }
  rewrite (proj2 (N.eqb_neq _ _) S0). cbn [orb].
  destruct (kst_meta base nn (option_map cs_view icert) h2 I S [I] [S] [] K2 (names_later _ _ _ _ NA L02)) as [(NP & E3)|[(h3 & it & FI & it2 & FS & E3 & L3 & K3 & G)|(h3 & li & FI & ls & FS & E3 & L3 & K3 & G)]].
  { intros v Hv. destruct icert as [c|]; [|discriminate]. injection Hv as <-. apply SI. reflexivity. }
  - rewrite E3. cbn [obind]. left. split; [|reflexivity]. intros PL. apply NP. eapply later_plenty; eassumption.
  - rewrite E3. cbn [obind]. change ((-1 <? 0)%Z) with true. cbv iota. assert (K3' : kst base h3 ([(I, it, FI); (S, it2, FS)] ++ [])) by (eapply kst_perm; [apply perm_swap|exact K3]).
    destruct (kst_free_all base _ h3 [] K3') as (h4 & E4 & L4 & K4). cbn [map fst] in E4. rewrite E4. cbn [obind].
    apply DONE; [eapply later_trans; [exact L02|eapply later_trans; eassumption]|exact K4|left; reflexivity|]. intros PL. unfold save_to_log. rewrite G by (eapply later_plenty; [exact L02|exact PL]). reflexivity.
  - rewrite E3. cbn [obind]. change ((0 <? 0)%Z) with false. cbv iota. pose proof (later_trans _ _ _ _ L02 L3) as L03.
    destruct icert as [ic|]; [|cbn [option_map crypto_getcert_meta] in G; discriminate]. cbn [option_map] in G.
    destruct (kst_new base h3 _ K3) as (I' & h4 & E4 & L4 & C4). rewrite E4. cbn [obind]. pose proof (later_trans _ _ _ _ L03 L4) as L04.
    destruct (kst_new base h4 (fresh_row I' ++ [(S, ls, FS); (I, li, FI)])) as (S' & h5 & E5 & L5 & C5). { destruct C4 as [(-> & _ & K)|(I0' & K)]; [exact K|]. rewrite (fresh_some _ I0'). exact K. }
    rewrite E5. cbn [obind]. pose proof (later_trans _ _ _ _ L04 L5) as L05.
    assert (FREE2 : forall hx X, later base h hx -> kst base hx (X ++ [(S, ls, FS); (I, li, FI)]) -> exists hy, free_lists hx [I; S] = Ok hy /\ later base h hy /\ kst base hy X).
    { intros hx X LX KX. assert (KX' : kst base hx ([(I, li, FI); (S, ls, FS)] ++ X)) by (eapply kst_perm; [|exact KX]; eapply Permutation_trans; [apply Permutation_app_comm|]; cbn [app]; apply perm_swap).
      destruct (kst_free_all base _ hx X KX') as (hy & EY & LY & KY). exists hy. split; [exact EY|]. split; [eapply later_trans; eassumption|exact KY]. }
    destruct C4 as [(-> & O4 & K4)|(I0' & K4)].
    { cbn [N.eqb orb]. pose proof (NPO _ _ L03 O4) as NP. cbn [fresh_row app] in C5. destruct C5 as [(-> & _ & K5)|(S0' & K5)].
      - destruct (FREE2 h5 [] L05 K5) as (h6 & E6 & L6 & K6). rewrite E6. cbn [obind]. apply DONE; [exact L6|exact K6|left; reflexivity|intros PL; contradiction].
      - destruct (FREE2 h5 [(S', [], [S'])] L05 K5) as (h6 & E6 & L6 & K6). rewrite E6. cbn [obind]. eapply LEAK; [exact L6|exact K6|exact NP]. }
    rewrite (proj2 (N.eqb_neq _ _) I0'). rewrite (fresh_some _ I0') in C5. cbn [app] in C5.
    destruct C5 as [(-> & O5 & K5)|(S0' & K5)].
    { cbn [N.eqb orb]. destruct (FREE2 h5 [(I', [], [I'])] L05 K5) as (h6 & E6 & L6 & K6). rewrite E6. cbn [obind]. eapply LEAK; [exact L6|exact K6|eapply NPO; [exact L04|exact O5]]. }
    rewrite (proj2 (N.eqb_neq _ _) S0'). cbn [orb].
    assert (FREE4 : forall hx a b fa fb, later base h hx -> kst base hx ((S', a, fa) :: (I', b, fb) :: [(S, ls, FS); (I, li, FI)]) -> exists hy, free_lists hx [I; S; I'; S'] = Ok hy /\ later base h hy /\ kst base hy []).
    { intros hx a b fa fb LX KX. assert (KX' : kst base hx ([(I, li, FI); (S, ls, FS); (I', b, fb); (S', a, fa)] ++ [])).
      { eapply kst_perm; [|exact KX]. rewrite app_nil_r. apply Permutation_sym. apply (Permutation_rev [(I, li, FI); (S, ls, FS); (I', b, fb); (S', a, fa)]). }
      destruct (kst_free_all base _ hx [] KX') as (hy & EY & LY & KY). exists hy. split; [exact EY|]. split; [eapply later_trans; eassumption|exact KY]. }
    destruct (kst_meta base nn (Some (cs_view lcert)) h5 I' S' [I'] [S'] _ K5 (names_later _ _ _ _ NA L05)) as [(NP & E6)|[(h6 & jt & FJ & jt2 & FT & E6 & L6 & K6 & G6)|(h6 & mi & FJ & ms & FT & E6 & L6 & K6 & G6)]].
    { intros v Hv. injection Hv as <-. exact SL. }
    + rewrite E6. cbn [obind]. left. split; [|reflexivity]. intros PL. apply NP. eapply later_plenty; eassumption.
    + rewrite E6. cbn [obind]. change ((-1 <? 0)%Z) with true. cbv iota. destruct (FREE4 h6 _ _ _ _ (later_trans _ _ _ _ L05 L6) K6) as (h7 & E7 & L7 & K7). rewrite E7. cbn [obind].
      apply DONE; [exact L7|exact K7|left; reflexivity|]. intros PL. unfold save_to_log. cbn [option_map]. rewrite G. cbn [obind]. rewrite G6 by (eapply later_plenty; [exact L05|exact PL]). reflexivity.
    + rewrite E6. cbn [obind]. change ((0 <? 0)%Z) with false. cbv iota. pose proof (later_trans _ _ _ _ L05 L6) as L06.
      assert (SV : save_to_log now opens log (Some ic) lcert = Ok (if opens then log ++ log_line now (get_uint64 (cs_serial ic)) (crypto_getcert_serial ls) (get_uint64 (cs_serial lcert)) (crypto_getcert_serial ms) else log)).
      { unfold save_to_log. cbn [option_map]. rewrite G. cbn [obind]. rewrite G6. cbn [obind]. destruct opens; reflexivity. }
      destruct opens.
      2:{ cbn [N.eqb obind]. destruct (FREE4 h6 _ _ _ _ L06 K6) as (h7 & E7 & L7 & K7). rewrite E7. cbn [obind]. apply DONE; [exact L7|exact K7|left; reflexivity|intros _; exact SV]. }
      destruct (kst_alloc base h6 _ (Buf []) K6) as (f & h7 & E7 & L7 & [(-> & NP & K7)|(F0 & R7 & W7 & h8 & E8 & L8 & K8)]); rewrite E7.
      * cbn [N.eqb obind]. destruct (FREE4 h7 _ _ _ _ (later_trans _ _ _ _ L06 L7) K7) as (h8 & E8 & L8 & K8). rewrite E8. cbn [obind]. apply DONE; [exact L8|exact K8|left; reflexivity|]. intros PL. exfalso. apply NP. eapply later_plenty; eassumption.
      * rewrite (proj2 (N.eqb_neq _ _) F0). apply Forall_cons_iff in R7. destruct R7 as [RS' R7]. apply Forall_cons_iff in R7. destruct R7 as [RI' R7]. apply Forall_cons_iff in R7. destruct R7 as [RS R7]. cbn [fst snd] in RS', RS.
        rewrite (klist_items _ _ _ _ W7 RS). cbn [obind]. rewrite (klist_items _ _ _ _ W7 RS'). cbn [obind]. cbv zeta. rewrite E8. cbn [obind].
        destruct (FREE4 h8 _ _ _ _ (later_trans _ _ _ _ L06 L8) K8) as (h9 & E9 & L9 & K9). rewrite E9. cbn [obind]. apply DONE; [exact L9|exact K9|right; exact SV|intros _; exact SV].
Qed.

(** *** Concrete heaps: the names of NNAMES are at 1 to 10, the allocation at [bad] fails. *)
Fixpoint index_of (n : bytes) (l : list bytes) (i : N) : N := match l with [] => 0 | m :: l => if beqb n m then i else index_of n l (i + 1) end.
Definition nn_case (n : bytes) : N := index_of n NNAMES 1.
Definition name_at (a : N) : cell := if a =? 0 then Fresh else match nth_error NNAMES (N.to_nat (a - 1)) with Some n => Live (Buf (n ++ [0])) | None => Fresh end.
Definition heap_case (bad : N) : heap := mk_heap 11 name_at (fun a => a =? bad).
Definition seen_a : cert_seen := named (Some (s2b "A")) 1.
Definition seen_b : cert_seen := named (Some (s2b "B")) 2.
Lemma heap_case_wf : forall bad, heap_wf (heap_case bad).
Proof.
  intros bad. split; [reflexivity|]. split; [reflexivity|]. intros a Ha. cbn [heap_case hp_next hp_cell] in *. unfold name_at. destruct (a =? 0) eqn:Z; [reflexivity|].
  rewrite (proj2 (nth_error_None NNAMES (N.to_nat (a - 1)))); [reflexivity|]. change (List.length NNAMES) with 10%nat. lia.
Qed.
Lemma heap_case_names : forall bad, names_at (hp_next (heap_case bad)) nn_case (heap_case bad).
Proof. intros bad n Hn. cbn [heap_case hp_next hp_cell]. cbn [NNAMES In] in Hn. repeat (destruct Hn as [<-|Hn]; [vm_compute; auto|]). destruct Hn. Qed.
Lemma named_short : forall t z, (forall s, t = Some s -> short_text s) -> short_view (cs_view (named t z)).
Proof. intros t z H. split; intros n s _ E; cbn [named cs_view cv_issuer_entry cv_subject_entry] in E; [discriminate|]. destruct (beqb n _) in E; [|discriminate]. apply H. congruence. Qed.
Lemma seen_short : short_view (cs_view seen_a) /\ short_view (cs_view seen_b).
Proof. split; apply named_short; intros s E; injection E as <-; reflexivity. Qed.
Lemma save_leaks : exists nn now log i l h h' x, heap_wf h /\ names_at (hp_next h) nn h /\ short_view (cs_view i) /\ short_view (cs_view l) /\
  h_save_to_log nn now true log (Some i) l h = Ok (log, h') /\ hp_next h <= x /\ is_live h' x /\ exists log', log' <> log /\ save_to_log now true log (Some i) l = Ok log'.
Proof.
  exists nn_case, 1700000000%Z, [], seen_a, seen_b, (heap_case 12). eexists _, 11. split; [apply heap_case_wf|]. split; [apply heap_case_names|]. split; [apply seen_short|]. split; [apply seen_short|].
  split; [vm_compute; reflexivity|]. split; [vm_compute; discriminate|]. split; [eexists; vm_compute; reflexivity|]. eexists. split; [|vm_compute; reflexivity]. discriminate.
Qed.
Lemma save_crashes : exists nn now log i l h, heap_wf h /\ names_at (hp_next h) nn h /\ short_view (cs_view i) /\ short_view (cs_view l) /\
  h_save_to_log nn now true log (Some i) l h = UB NullDeref.
Proof.
  exists nn_case, 1700000000%Z, [], seen_a, seen_b, (heap_case 15). split; [apply heap_case_wf|]. split; [apply heap_case_names|]. split; [apply seen_short|]. split; [apply seen_short|]. vm_compute. reflexivity.
Qed.
Lemma save_runs : exists nn now log i l h h' log', heap_wf h /\ plenty h /\ names_at (hp_next h) nn h /\ short_view (cs_view i) /\ short_view (cs_view l) /\
  h_save_to_log nn now true log (Some i) l h = Ok (log', h') /\ log' = s2b "1700000000 0x1 ""A"" 0x2 ""B""" ++ [10].
Proof.
  exists nn_case, 1700000000%Z, [], seen_a, seen_b, (mk_heap 11 name_at (fun _ => false)). eexists _, _. split; [exact (heap_case_wf 0)|]. split; [intros a; reflexivity|]. split; [exact (heap_case_names 0)|]. split; [apply seen_short|]. split; [apply seen_short|].
  split; vm_compute; reflexivity.
Qed.
