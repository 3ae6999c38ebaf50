(** Proofs about the memory of request.c: verifying a signed voucher. *)
From Coq Require Import Permutation ZifyBool ZifyNat ZifyN.
From Verif Require Import Base PBase MBase64 MSerialize MOs MJsmn MVoucher SVoucher PVoucher SJson PVoucherText PVoucherRound MCrypto MRequest SRequest PRequest PRequest2
  MHeap MArray MVoucherHeap MConfig MHandlers MSerialHeap MRequestHeap SHeap SArray SVoucherHeap SSerialHeap PHeap PArray PBlocks POwn PHold
  PVoucherHeap PVoucherHeapJson PVoucherHeapOom PAcquire PSerialHeap PSerialHeap3 PSerialHeap4 SRequestHeap PRequestHeap PRequestHeap2.
Open Scope N_scope.

(** *** The signers' certificates *)
Lemma alist_nodup : forall h H items F, alist h H items F -> NoDup F.
Proof. intros h H items F (ns & (_ & _ & _ & _ & D & _) & _ & ->). exact D. Qed.

Lemma push_hold : forall base h H items F L arr d len fl, hold base h (F ++ L) -> alist h H items F -> arr <> 0 -> hp_cell h arr = Live (Buf d) -> len <= blen d ->
  (hp_oom h (hp_next h) = true /\ exists h', push_array_list h H arr len fl = Ok ((-1)%Z, h') /\ hp_next h' = hp_next h + 1 /\ hp_oom h' = hp_oom h /\
     (forall x, hp_cell h' x = hp_cell h x) /\ hold base h' (F ++ L) /\ alist h' H items F) \/
  (hp_oom h (hp_next h + 1) = true /\ push_array_list h H arr len fl = UB NullDeref) \/
  (exists h' F', push_array_list h H arr len fl = Ok (0%Z, h') /\ hp_next h' = hp_next h + 2 /\ hp_oom h' = hp_oom h /\
     (forall x, x < hp_next h -> ~ In x F -> hp_cell h' x = hp_cell h x) /\ hold base h' (F' ++ L) /\ alist h' H (items ++ [(firstn (N.to_nat len) d, fl)]) F').
Proof.
  intros base h H items F L arr d len fl Hh AL A0 Ca Hle. pose proof (hold_wf _ _ _ Hh) as W. pose proof Hh as (_ & B & D & G & V).
  destruct (push_alist h H items F arr d len fl W AL A0 Ca Hle) as [(Oo & h3 & Ep & W3 & Hn3 & Ho3 & Cx)|[(_ & Oo & Ep)|(_ & Oo & h3 & F' & Ep & W3 & Hn3 & Ho3 & K3 & P & Cx)]].
  - left. split; [exact Oo|]. exists h3. split; [exact Ep|]. split; [exact Hn3|]. split; [exact Ho3|]. split; [exact Cx|]. split.
    + eapply hold_same; [exact Hh|exact W3|lia|intros b _; apply Cx].
    + eapply alist_frame; [exact AL|intros b _; apply Cx].
  - right. left. auto.
  - right. right. exists h3, F'. split; [exact Ep|]. split; [exact Hn3|]. split; [exact Ho3|]. split; [intros x Hx Hf; apply Cx; [exact Hf|lia|lia]|]. split; [|exact K3].
    assert (Low : forall a, In a (F ++ L) -> a < hp_next h) by (intros a Ha; apply (hold_in _ _ _ a Hh Ha)).
    split; [exact W3|]. split; [lia|]. split; [|split].
    + apply disjoint_app; [eapply alist_nodup; exact K3|eapply NoDup_app_remove_l'; exact D|]. intros a Ha Q. apply P in Ha. destruct Ha as [Ha|Ha].
      * exact (disjoint_of_NoDup _ _ D a Ha Q).
      * assert (X : a < hp_next h) by (apply Low; apply in_or_app; right; exact Q). lia.
    + intros a Ha. apply in_app_or in Ha. destruct Ha as [Ha|Ha]; [|apply G; apply in_or_app; right; exact Ha]. apply P in Ha. destruct Ha as [Ha|Ha]; [apply G; apply in_or_app; left; exact Ha|lia].
    + intros a Ha. rewrite in_app_iff. destruct (in_dec N.eq_dec a F') as [Q|Q].
      * split; [auto|]. intros _. eapply alist_live; eassumption.
      * assert (Qf : ~ In a F) by (intros X; apply Q; apply P; auto). assert (Q1 : a <> hp_next h) by (intros X; apply Q; apply P; auto). assert (Q2 : a <> hp_next h + 1) by (intros X; apply Q; apply P; auto).
        unfold is_live. rewrite Cx by assumption. fold (is_live h a). rewrite (V a Ha), in_app_iff. tauto.
Qed.

Definition fresh_list (base : N) (L : list N) (h : heap) (r : outcome (Z * heap)) (t : option certlist) (items : list (bytes * Z)) (l : N) : Prop :=
  match r with
  | UB k => k = NullDeref /\ starved h
  | Ok (rc, h') => gentle base h h' /\ heap_wf h' /\ (forall a, In a L -> hp_cell h' a = hp_cell h a) /\
     ((rc = 0%Z /\ exists ders F', t = Some ders /\ alist h' l (items ++ ders) F' /\ hold base h' (F' ++ L)) \/
      (rc = (-1)%Z /\ (t = None \/ refused h h') /\ hold base h' L))
  end.

Lemma free_alist_hold : forall base h l items F L, hold base h (F ++ L) -> alist h l items F ->
  exists h', free_array_list h l = Ok h' /\ gentle base h h' /\ heap_wf h' /\ hp_next h' = hp_next h /\ (forall a, ~ In a F -> hp_cell h' a = hp_cell h a) /\ hold base h' L.
Proof.
  intros base h l items F L H AL. destruct (free_alist _ _ _ _ (hold_wf _ _ _ H) AL) as (h' & E & R & W' & Hn & Ho). exists h'. split; [exact E|].
  pose proof R as [R1 R2]. split; [|split; [exact W'|split; [exact Hn|split; [exact R2|eapply hold_released; eassumption]]]].
  split; [|split; [exact Ho|lia]]. intros a Ha. apply R2. intros Q. destruct (hold_in _ _ _ a H (in_or_app _ _ _ (or_introl Q))) as (_ & _ & _ & X). lia.
Qed.

Lemma push_certs_fresh : forall o base L l xs h items F, hold base h (F ++ L) -> alist h l items F ->
  fresh_list base L h (h_push_certs o h l xs) (der_list o xs) items l.
Proof.
  intros o base L l. induction xs as [|x xs IH]; intros h items F H AL; cbn [h_push_certs der_list].
  - split; [apply gentle_refl|]. split; [eapply hold_wf; exact H|]. split; [reflexivity|]. left. split; [reflexivity|]. exists [], F. rewrite app_nil_r. auto.
  - assert (Dis : forall a, In a L -> ~ In a F) by (intros a Ha Q; pose proof H as (_ & _ & D & _); exact (disjoint_of_NoDup _ _ D a Q Ha)).
    destruct (i2d_x509 o x) as [d|].
    2:{ destruct (free_alist_hold _ _ _ _ _ _ H AL) as (h' & -> & G & W' & Hn & K & H'). cbn [obind]. split; [exact G|]. split; [exact W'|]. split; [intros a Ha; apply K; apply Dis; exact Ha|]. right. split; [reflexivity|]. split; [left; reflexivity|exact H']. }
    destruct (hold_alloc _ _ _ (Buf d) H) as (cert & h1 & Ea & E1 & Hn1 & C1). rewrite Ea. pose proof E1 as (W1 & N1 & K1 & O1).
    assert (Bn : base <= hp_next h) by (pose proof H as (_ & X & _); exact X). pose proof (gentle_of_ext _ _ _ Bn E1) as G1.
    assert (Low : forall a, In a (F ++ L) -> a < hp_next h) by (intros a Ha; apply (hold_in _ _ _ a H Ha)).
    destruct C1 as [(-> & Oom1 & X1 & H1)|(Hc & C0 & Oom1 & Cc & X1 & H1)].
    { cbn [N.eqb]. assert (AL1 : alist h1 l items F) by (eapply alist_frame; [exact AL|intros a _; apply X1]).
      destruct (free_alist_hold _ _ _ _ _ _ H1 AL1) as (h' & -> & G & W' & Hn & K & H'). cbn [obind]. split; [eapply gentle_trans; eassumption|]. split; [exact W'|]. split; [intros a Ha; rewrite K by (apply Dis; exact Ha); apply X1|].
      right. split; [reflexivity|]. split; [right; apply refused_here; [exact Oom1|lia]|exact H']. }
    rewrite (proj2 (N.eqb_neq _ _) C0).
    assert (AL1 : alist h1 l items F) by (eapply alist_frame; [exact AL|intros a Ha; apply X1; intros ->; assert (Y : cert < hp_next h) by (apply Low; apply in_or_app; left; exact Ha); lia]).
    assert (H1' : hold base h1 (F ++ cert :: L)) by (eapply hold_perm; [|exact H1]; apply (Permutation_middle F L cert)).
    destruct (push_hold base h1 l items F (cert :: L) cert d (blen d) 0%Z H1' AL1 C0 Cc (N.le_refl _)) as [(Oo & h2 & Ep & Hn2 & Ho2 & Cx & H2 & AL2)|[(Oo & Ep)|(h2 & F' & Ep & Hn2 & Ho2 & Cx & H2 & AL2)]];
      rewrite Ep; cbn [obind fst snd].
    + assert (H2' : hold base h2 (cert :: F ++ L)) by (eapply hold_perm; [|exact H2]; apply Permutation_sym; apply (Permutation_middle F L cert)).
      destruct (hold_free _ _ _ _ H2') as [E3 H3]. rewrite E3. cbn [obind Z.ltb Z.compare].
      assert (Cn : ~ In cert (F ++ L)) by (intros Q; apply Low in Q; lia).
      assert (AL3 : alist (put h2 cert Freed) l items F) by (eapply alist_frame; [exact AL2|intros a Ha; apply put_other; intros ->; apply Cn; apply in_or_app; left; exact Ha]).
      destruct (free_alist_hold _ _ _ _ _ _ H3 AL3) as (h' & -> & G & W' & Hn & K & H'). cbn [obind]. cbn [put hp_next] in Hn.
      assert (G3 : gentle base h (put h2 cert Freed)).
      { eapply gentle_trans; [exact G1|]. split; [|split; [cbn [put hp_oom]; exact Ho2|cbn [put hp_next]; lia]]. intros a Ha. rewrite put_other by lia. apply Cx. }
      split; [eapply gentle_trans; eassumption|]. split; [exact W'|]. split.
      * intros a Ha. rewrite K by (apply Dis; exact Ha). rewrite put_other by (intros ->; apply Cn; apply in_or_app; right; exact Ha). rewrite Cx. apply X1. intros ->. apply Cn. apply in_or_app. right. exact Ha.
      * right. split; [reflexivity|]. split; [right|exact H']. exists (hp_next h1). split; [lia|]. rewrite <- O1. exact Oo.
    + split; [reflexivity|]. eapply starved_at; [|rewrite <- O1; exact Oo]. lia.
    + assert (H2' : hold base h2 (cert :: F' ++ L)) by (eapply hold_perm; [|exact H2]; apply Permutation_sym; apply (Permutation_middle F' L cert)).
      destruct (hold_free _ _ _ _ H2') as [E3 H3]. rewrite E3. cbn [obind Z.ltb Z.compare].
      assert (Cn : ~ In cert (F' ++ L)) by (pose proof H2' as (_ & _ & D & _); apply NoDup_cons_iff in D; apply D).
      assert (AL3 : alist (put h2 cert Freed) l (items ++ [(d, 0%Z)]) F').
      { eapply alist_frame; [|intros a Ha; apply put_other; intros ->; apply Cn; apply in_or_app; left; exact Ha]. unfold blen in AL2. rewrite Nat2N.id, firstn_all in AL2. exact AL2. }
      specialize (IH _ _ _ H3 AL3).
      assert (G3 : gentle base h (put h2 cert Freed)).
      { eapply gentle_trans; [exact G1|]. split; [|split; [cbn [put hp_oom]; exact Ho2|cbn [put hp_next]; lia]]. intros a Ha. rewrite put_other by lia. apply Cx; [lia|]. intros Q. pose proof H as (_ & _ & _ & Gb & _). assert (base <= a) by (apply Gb; apply in_or_app; left; exact Q). lia. }
      destruct (h_push_certs o (put h2 cert Freed) l xs) as [[rc h']|e]; cbn [fresh_list] in *.
      * destruct IH as (G & W' & K & IH). split; [eapply gentle_trans; eassumption|]. split; [exact W'|]. split.
        -- intros a Ha. rewrite K by exact Ha. rewrite put_other by (intros ->; apply Cn; apply in_or_app; right; exact Ha). rewrite Cx.
           ++ apply X1. intros ->. apply Cn. apply in_or_app. right. exact Ha.
           ++ assert (a < hp_next h) by (apply Low; apply in_or_app; right; exact Ha). lia.
           ++ apply Dis. exact Ha.
        -- destruct IH as [(-> & ders & F2 & Ed & A2 & H2f)|(-> & Q & H2f)].
           ++ left. split; [reflexivity|]. rewrite Ed. exists ((d, 0%Z) :: ders), F2. split; [reflexivity|]. split; [|exact H2f]. rewrite <- app_assoc in A2. exact A2.
           ++ right. split; [reflexivity|]. split; [|exact H2f]. destruct Q as [->|Q]; [left; reflexivity|right]. eapply refused_gentle; [exact G3|exact Q].
      * destruct IH as [-> S]. split; [reflexivity|]. eapply starved_before; [| |exact S]; apply G3.
Qed.

Definition listed (h : heap) (l : N) (lst : option certlist) (F : list N) : Prop :=
  (l = 0 /\ lst = None /\ F = []) \/ (exists items, lst = Some items /\ alist h l items F).

Lemma listed_frame : forall h h' l lst F, listed h l lst F -> (forall a, In a F -> hp_cell h' a = hp_cell h a) -> listed h' l lst F.
Proof. intros h h' l lst F [H|(items & -> & H)] K; [left; exact H|right]. exists items. split; [reflexivity|]. eapply alist_frame; eassumption. Qed.
Lemma listed_read : forall h l lst F, heap_wf h -> listed h l lst F -> h_certlist h l = Ok lst.
Proof.
  intros h l lst F W [(-> & -> & _)|(items & -> & H)]; [reflexivity|]. unfold h_certlist. destruct (alist_head _ _ _ _ H) as [_ H0]. rewrite (proj2 (N.eqb_neq _ _) H0).
  rewrite (proj1 (alist_items _ _ _ _ W H)). reflexivity.
Qed.
Lemma free_listed : forall base h l lst F L, hold base h (F ++ L) -> listed h l lst F ->
  exists h', free_array_list h l = Ok h' /\ gentle base h h' /\ heap_wf h' /\ hp_next h' = hp_next h /\ (forall a, ~ In a F -> hp_cell h' a = hp_cell h a) /\ hold base h' L.
Proof.
  intros base h l lst F L H [(-> & -> & ->)|(items & -> & A)]; [|eapply free_alist_hold; eassumption].
  exists h. split; [reflexivity|]. split; [apply gentle_refl|]. split; [eapply hold_wf; exact H|]. split; [reflexivity|]. split; [reflexivity|exact H].
Qed.

Definition extracts (h : heap) (r : outcome (Z * N * heap)) (t : option (option certlist)) : Prop :=
  match r with
  | UB k => k = NullDeref /\ starved h
  | Ok (rc, l, h') => ext h h' /\
     ((rc = 0%Z /\ exists lst F, t = Some lst /\ listed h' l lst F /\ hold (hp_next h) h' F) \/
      (rc = (-1)%Z /\ l = 0 /\ (t = None \/ refused h h') /\ hold (hp_next h) h' []))
  end.
Lemma extract_ok : forall o h c st, heap_wf h -> extracts h (h_extract_certs o h c st) (exatract_cms_certs o c st).
Proof.
  intros o h c st W. unfold h_extract_certs, exatract_cms_certs.
  assert (No : extracts h (Ok (0%Z, 0, h)) (Some None)).
  { split; [apply ext_refl; exact W|]. left. split; [reflexivity|]. exists None, []. split; [reflexivity|]. split; [left; auto|apply hold_init; exact W]. }
  destruct (cms_signers o c st) as [xs|]; [|exact No]. destruct xs as [|x xs]; [exact No|]. clear No.
  destruct (init_alist h W) as (l & h1 & Ei & W1 & Hn1 & Ho1 & C1). rewrite Ei. cbn [obind].
  destruct C1 as [(-> & Oo & Cx)|(Hl & L0 & Oo & AL & Cx)].
  - cbn [N.eqb]. split; [split; [exact W1|split; [lia|split; [intros a _; apply Cx|exact Ho1]]]|]. right. split; [reflexivity|]. split; [reflexivity|]. split; [right; apply refused_here; [exact Oo|lia]|].
    eapply hold_same; [apply hold_init; exact W|exact W1|lia|intros a _; apply Cx].
  - rewrite (proj2 (N.eqb_neq _ _) L0).
    assert (H1 : hold (hp_next h) h1 ([l] ++ [])).
    { cbn [app]. split; [exact W1|]. split; [lia|]. split; [constructor; [intros []|constructor]|]. split; [intros a [<-|[]]; lia|]. intros a Ha. cbn [In]. destruct (N.eq_dec a l) as [->|Hne].
      - split; [auto|]. intros _. eapply alist_live; [exact AL|left; reflexivity].
      - unfold is_live. rewrite Cx by exact Hne. split; [|intros [Q|[]]; congruence]. intros Q. assert (X : is_live h a) by exact Q. pose proof (live_below _ _ W X). lia. }
    assert (E1 : ext h h1) by (split; [exact W1|split; [lia|split; [intros a Ha; apply Cx; lia|exact Ho1]]]).
    pose proof (push_certs_fresh o (hp_next h) [] l (x :: xs) h1 [] [l] H1 AL) as X. destruct (h_push_certs o h1 l (x :: xs)) as [[rc h']|e]; cbn [obind fst snd extracts fresh_list] in *.
    + destruct X as (G & W' & _ & X). pose proof (ext_of _ _ W' (gentle_trans _ _ _ _ (gentle_of_ext _ _ _ (N.le_refl _) E1) G)) as E2. split; [exact E2|].
      destruct X as [(-> & ders & F' & Ed & A2 & H2)|(-> & Q & H2)].
      * left. split; [reflexivity|]. cbn [Z.ltb Z.compare]. rewrite Ed. exists (Some ders), F'. split; [reflexivity|]. rewrite app_nil_r in H2. split; [right; exists ders; auto|exact H2].
      * right. split; [reflexivity|]. split; [reflexivity|]. split; [|exact H2]. destruct Q as [->|Q]; [left; reflexivity|right]. eapply refused_before; [| |exact Q]; [lia|exact Ho1].
    + destruct X as [-> S]. split; [reflexivity|]. eapply starved_before; [| |exact S]; [lia|exact Ho1].
Qed.

(** *** The content *)
Lemma bio_ok : forall h d n data h', heap_wf h -> h_bio_to_ptr h d = (n, data, h') -> ext h h' /\
  ((n = (-1)%Z /\ data = 0 /\ refused h h' /\ hold (hp_next h) h' []) \/
   (n = Z.of_N (blen d) /\ hold (hp_next h) h' (nz data) /\ ((d = [] /\ data = 0) \/ (d <> [] /\ data <> 0 /\ hp_cell h' data = Live (Buf d))))).
Proof.
  intros h d n data h' W E. destruct d as [|x d]; cbn [h_bio_to_ptr] in E.
  - assert (n = 0%Z /\ data = 0 /\ h' = h) as (-> & -> & ->) by (repeat split; congruence). split; [apply ext_refl; exact W|]. right. split; [reflexivity|]. split; [apply hold_init; exact W|]. left. auto.
  - destruct (hold_alloc _ _ _ (Buf (x :: d)) (hold_init _ W)) as (b & h1 & Ea & X1 & Hn & Cs). rewrite Ea in E. destruct Cs as [(-> & Oom & _ & H1)|(Hb & B0 & _ & Cb & _ & H1)].
    + cbn [N.eqb] in E. assert (n = (-1)%Z /\ data = 0 /\ h' = h1) as (-> & -> & ->) by (repeat split; congruence). split; [exact X1|]. left. split; [reflexivity|]. split; [reflexivity|]. split; [apply refused_here; [exact Oom|lia]|exact H1].
    + rewrite (proj2 (N.eqb_neq _ _) B0) in E. assert (n = Z.of_N (blen (x :: d)) /\ data = b /\ h' = h1) as (-> & -> & ->) by (repeat split; congruence). split; [exact X1|]. right. split; [reflexivity|].
      split; [unfold nz; rewrite (proj2 (N.eqb_neq _ _) B0); exact H1|]. right. split; [discriminate|auto].
Qed.

Definition opens (o : ossl) (h : heap) (cms : barray) (lc ls : option certlist) (want : bool) (r : outcome (Z * N * N * heap)) (t : option (option bytes * option certlist)) : Prop :=
  match r with
  | UB k => k = NullDeref /\ starved h
  | Ok (n, data, l, h') => ext h h' /\
     (((n < 0)%Z /\ l = 0 /\ (t = None \/ refused h h') /\ exists L, hold (hp_next h) h' L /\ (want = false \/ (forall c st json, ~ verified o cms lc ls c st json) -> L = [])) \/
      ((0 <= n)%Z /\ exists c st json lst F, verified o cms lc ls c st json /\ t = Some (match json with [] => None | _ => Some json end, lst) /\ signer_certs o c st want lst /\
         listed h' l lst F /\ hold (hp_next h) h' (nz data ++ F) /\ (want = false -> F = [] /\ l = 0) /\
         ((json = [] /\ data = 0) \/ (json <> [] /\ data <> 0 /\ hp_cell h' data = Live (Buf json)))))
  end.

Lemma extract_iff : forall o c st lst, exatract_cms_certs o c st = Some lst -> signer_certs o c st true lst.
Proof.
  intros o c st lst E. unfold exatract_cms_certs in E. cbn [signer_certs]. destruct (cms_signers o c st) as [[|x xs]|]; try congruence.
  destruct (der_list o (x :: xs)) as [m|] eqn:Em; [|discriminate]. exists m. split; [apply der_iff; exact Em|]. injection E as <-. reflexivity.
Qed.

Lemma opens_ok : forall o h cms certs store want x lc ls t, heap_wf h -> array_at h cms (Some x) -> h_certlist h certs = Ok lc -> h_certlist h store = Ok ls ->
  crypto_verify_cms o x lc ls want = Ok t -> opens o h x lc ls want (h_crypto_verify_cms o h cms certs store want) t.
Proof.
  intros o h cms certs store want x lc ls t W Ax Al As Et. unfold h_crypto_verify_cms. rewrite (array_at_read _ _ _ Ax). cbn [obind]. rewrite Al, As. cbn [obind].
  unfold crypto_verify_cms in Et.
  assert (Fail : t = None -> (forall c st json, ~ verified o x lc ls c st json) -> opens o h x lc ls want (Ok ((-1)%Z, 0, 0, h)) t).
  { intros -> Nv. split; [apply ext_refl; exact W|]. left. split; [lia|]. split; [reflexivity|]. split; [left; reflexivity|]. exists []. split; [apply hold_init; exact W|reflexivity]. }
  destruct (ba_read x) as [d|e] eqn:Ed; [|discriminate]. cbn [obind] in Et |- *.
  assert (Hd : forall d', holds_bytes x d' -> d' = d) by (intros d' Hd'; apply ba_read_iff in Hd'; congruence).
  destruct (d2i_cms o d) as [c|] eqn:Ec.
  2:{ apply Fail; [congruence|]. intros c st json (d' & s & H1 & H2 & _). rewrite (Hd _ H1) in H2. congruence. }
  destruct (opt_stack o lc) as [stk|] eqn:Es.
  2:{ apply Fail; [congruence|]. intros c' st json (d' & s & H1 & H2 & H3 & _). apply opt_stack_iff in H3. congruence. }
  destruct (opt_store o ls) as [st|] eqn:Est.
  2:{ apply Fail; [congruence|]. intros c' st' json (d' & s & H1 & H2 & H3 & H4 & _). apply opt_store_iff in H4. congruence. }
  assert (Eno : (match st with None => true | Some _ => false end) = (match ls with None => true | Some _ => false end)).
  { apply opt_store_iff in Est. destruct ls; destruct st; cbn in Est; try contradiction; reflexivity. }
  destruct (cms_verify o c stk st _) as [json|] eqn:Ev.
  2:{ apply Fail; [congruence|]. intros c' st' json (d' & s & H1 & H2 & H3 & H4 & H5). rewrite (Hd _ H1) in H2. apply opt_stack_iff in H3. apply opt_store_iff in H4. rewrite Eno in Ev. congruence. }
  assert (Hver : verified o x lc ls c stk json).
  { exists d, st. split; [apply ba_read_iff; exact Ed|]. split; [exact Ec|]. split; [apply opt_stack_iff; exact Es|]. split; [apply opt_store_iff; exact Est|]. rewrite <- Eno. exact Ev. }
  clear Fail. destruct (h_bio_to_ptr h json) as [[n data] h1] eqn:Eb. destruct (bio_ok h json n data h1 W Eb) as [E1 Cs].
  destruct Cs as [(-> & -> & R & H1)|(-> & H1 & D)].
  { cbn [Z.ltb Z.compare]. split; [exact E1|]. left. split; [lia|]. split; [reflexivity|]. split; [right; exact R|]. exists []. auto. }
  destruct (Z.of_N (blen json) <? 0)%Z eqn:Q; [lia|]. clear Q.
  destruct want.
  - pose proof (extract_ok o h1 c stk (proj1 E1)) as X. destruct (h_extract_certs o h1 c stk) as [[[rc l] h2]|e]; cbn [obind extracts] in *.
    + destruct X as [E2 X]. pose proof (ext_trans _ _ _ E1 E2) as E12. pose proof E1 as (W1 & N1 & K1 & O1).
      destruct X as [(-> & lst & F & Ex & Li & H2)|(-> & -> & Qx & H2)].
      * cbn [Z.ltb Z.compare]. rewrite Ex in Et. split; [exact E12|]. right. split; [lia|]. exists c, stk, json, lst, F. split; [exact Hver|]. split; [destruct json; congruence|].
        split; [apply extract_iff; exact Ex|]. split; [exact Li|]. split; [eapply hold_perm; [apply Permutation_app_comm|]; exact (hold_grow _ _ _ _ _ H1 E2 H2)|]. split; [discriminate|].
        destruct D as [D|(J0 & D0 & Cd)]; [left; exact D|right]. split; [exact J0|]. split; [exact D0|]. destruct E2 as (_ & _ & K2 & _). rewrite K2; [exact Cd|]. apply (hold_in _ _ _ data H1). unfold nz. rewrite (proj2 (N.eqb_neq _ _) D0). left. reflexivity.
      * cbn [Z.ltb Z.compare]. split; [exact E12|]. left. split; [lia|]. split; [reflexivity|]. split.
        -- destruct Qx as [Qx|Qx]; [left; rewrite Qx in Et; congruence|right]. eapply refused_before; eassumption.
        -- eexists. split; [exact (hold_grow _ _ _ _ _ H1 E2 H2)|]. intros [Y|Y]; [discriminate|]. destruct (Y _ _ _ Hver).
    + destruct X as [-> S]. split; [reflexivity|]. destruct E1 as (_ & N1 & _ & O1). eapply starved_before; eassumption.
  - split; [exact E1|]. right. split; [lia|]. exists c, stk, json, None, []. split; [exact Hver|]. split; [destruct json; congruence|]. split; [reflexivity|]. split; [left; auto|]. rewrite app_nil_r. split; [exact H1|]. split; [auto|exact D].
Qed.

Definition clean (o : ossl) (cms : option barray) (lc ls : option certlist) : Prop :=
  forall x c st json, cms = Some x -> verified o x lc ls c st json -> unrepeated json.
Definition checks (o : ossl) (h : heap) (cms : option barray) (lc ls : option certlist) (want : bool) (r : outcome (N * voucher * N * heap)) (t : option (voucher * option certlist)) : Prop :=
  match r with
  | UB k => k = NullDeref /\ starved h
  | Ok (v, pl, l, h') => ext h h' /\
     ((v = 0 /\ (t = None \/ refused h h') /\ exists L, hold (hp_next h) h' L /\
         (clean o cms lc ls -> want = false \/ (forall x c st json, cms = Some x -> ~ verified o x lc ls c st json) -> L = [])) \/
      (v <> 0 /\ exists w lst f F lk, t = Some (w, lst) /\ listed h' l lst F /\ vstate (hp_next h) h' v f (lk ++ F) /\ agrees f w /\ same_plain w pl /\
         (clean o cms lc ls -> lk = []) /\ (want = false -> F = [])))
  end.

Lemma free_data : forall base h data L, hold base h (nz data ++ L) -> exists h', sys_free h data = Ok h' /\ gentle base h h' /\ hp_next h' = hp_next h /\ (forall a, ~ In a (nz data) -> hp_cell h' a = hp_cell h a) /\ hold base h' L.
Proof.
  intros base h data L H. unfold nz in *. destruct (data =? 0) eqn:E.
  - apply N.eqb_eq in E. subst data. exists h. split; [reflexivity|]. split; [apply gentle_refl|]. split; [reflexivity|]. split; [reflexivity|exact H].
  - cbn [app] in H. destruct (hold_free _ _ _ _ H) as [Ef H']. exists (put h data Freed). split; [exact Ef|]. destruct (hold_in _ _ _ data H (or_introl eq_refl)) as (_ & _ & _ & B). split; [|split; [reflexivity|split; [|exact H']]].
    + split; [intros a Ha; apply put_other; lia|]. split; [reflexivity|]. cbn [put hp_next]. lia.
    + intros a Ha. apply put_other. intros ->. apply Ha. left. reflexivity.
Qed.

Lemma checks_ok : forall o h cms certs store want x lc ls t, ossl_sane o -> heap_wf h -> array_at h cms x -> h_certlist h certs = Ok lc -> h_certlist h store = Ok ls ->
  verify_cms_voucher o x lc ls want = Ok t -> checks o h x lc ls want (h_verify_cms_voucher o h cms certs store want) t.
Proof.
  intros o h cms certs store want x lc ls t So W Ax Al As Et. unfold h_verify_cms_voucher. destruct x as [x|].
  2:{ cbn in Ax. rewrite Ax. cbn [N.eqb]. assert (t = None) as -> by (cbn in Et; congruence). split; [apply ext_refl; exact W|]. left. split; [reflexivity|]. split; [left; reflexivity|]. exists []. split; [apply hold_init; exact W|reflexivity]. }
  rewrite (proj2 (N.eqb_neq _ _) (proj1 Ax)). cbn [verify_cms_voucher] in Et. destruct (crypto_verify_cms o x lc ls want) as [tc|e] eqn:Ec; [|discriminate]. cbn [obind] in Et.
  pose proof (opens_ok o h cms certs store want x lc ls tc W Ax Al As Ec) as X. destruct (h_crypto_verify_cms o h cms certs store want) as [[[[n data] l] h1]|e]; cbn [obind opens] in *; [|exact X].
  destruct X as [E1 X]. pose proof E1 as (W1 & N1 & K1 & O1). destruct X as [(Hn & -> & Q & L & H1 & HL)|(Hn & c & st & json & lst & F & Hv & -> & Sg & Li & H1 & Hw & D)].
  { destruct (n <? 0)%Z eqn:En; [|lia]. split; [exact E1|]. left. split; [reflexivity|]. split; [destruct Q as [->|Q]; [left; congruence|right; exact Q]|]. exists L. split; [exact H1|].
    intros _ Y. apply HL. destruct Y as [Y|Y]; [left; exact Y|right]. intros c st json. apply Y. reflexivity. }
  destruct (n <? 0)%Z eqn:En; [lia|]. unfold h_deserialize. destruct D as [(-> & ->)|(J0 & D0 & Cd)].
  { cbn [load_buf N.eqb obind sys_free]. assert (t = None) as -> by (cbn in Et; congruence). split; [exact E1|]. left. split; [reflexivity|]. split; [left; reflexivity|]. exists F. split; [exact H1|].
    intros _ [Y|Y]; [apply (Hw Y)|]. exfalso. exact (Y _ _ _ _ eq_refl Hv). }
  assert (Ej : (match json with [] => None | _ :: _ => Some json end) = Some json) by (destruct json; [contradiction|reflexivity]). rewrite Ej in Et.
  unfold load_buf. rewrite (proj2 (N.eqb_neq _ _) D0), Cd. cbn [obind].
  assert (Sj : bytes_ok json /\ blen json < 2147483648) by (destruct Hv as (d & s & _ & _ & _ & _ & Y); eapply (proj1 So); exact Y). destruct Sj as [Bj Lj].
  pose proof (deserialize_oom json h1 Bj Lj W1) as R. destruct (h_deserialize_voucher h1 json) as [[v h2]|e]; cbn [obind fst snd reads] in *.
  2:{ destruct R as [-> S]. split; [reflexivity|]. eapply starved_before; eassumption. }
  destruct R as [G2 R].
  assert (Un : clean o (Some x) lc ls -> unrepeated json) by (intros Y; apply (Y _ _ _ _ eq_refl Hv)).
  destruct R as [(-> & Q & lk & H2 & HL)|(V0 & f & lk & w & Hs & Ew & Ag & HL)].
  - pose proof (ext_of _ _ (hold_wf _ _ _ H2) G2) as E2. pose proof (hold_grow _ _ _ _ _ H1 E2 H2) as H3.
    assert (H3' : hold (hp_next h) h2 (nz data ++ (lk ++ F))) by (eapply hold_perm; [|exact H3]; apply Permutation_app_swap_app).
    destruct (free_data _ _ _ _ H3') as (h3 & -> & G3 & Hn3 & K3 & H4). cbn [obind]. split.
    + apply ext_of; [eapply hold_wf; exact H4|]. eapply gentle_trans; [apply (gentle_of_ext _ _ _ (N.le_refl _) E1)|]. eapply gentle_trans; [apply (gentle_of_ext _ _ _ N1 E2)|exact G3].
    + left. split; [reflexivity|]. split.
      * destruct Q as [Q|Q]; [left; rewrite Q in Et; cbn [obind] in Et; congruence|right]. eapply refused_later; [eapply refused_before; [exact N1|exact O1|exact Q]|lia].
      * exists (lk ++ F). split; [exact H4|]. intros C [Y|Y]; [|exfalso; exact (Y _ _ _ _ eq_refl Hv)]. rewrite (HL (Un C)). apply (Hw Y).
  - pose proof (ext_of _ _ (vstate_wf _ _ _ _ _ Hs) G2) as E2. apply vstate_vch in Hs. destruct Hs as (Fv & Hvc & H2). pose proof (hold_grow _ _ _ _ _ H1 E2 H2) as H3.
    assert (H3' : hold (hp_next h) h2 (nz data ++ (Fv ++ (lk ++ F)))).
    { eapply hold_perm; [|exact H3]. rewrite <- app_assoc. eapply Permutation_trans; [|apply Permutation_app_swap_app]. apply Permutation_app_head. apply Permutation_app_swap_app. }
    destruct (free_data _ _ _ _ H3') as (h3 & Ef & G3 & Hn3 & K3 & H4). rewrite Ef. cbn [obind].
    assert (Dis : forall a, In a (Fv ++ lk ++ F) -> ~ In a (nz data)) by (intros a Ha Q; pose proof H3' as (_ & _ & Dd & _); exact (disjoint_of_NoDup _ _ Dd a Q Ha)).
    rewrite Ew in Et |- *. cbn [obind] in Et. split.
    + apply ext_of; [eapply hold_wf; exact H4|]. eapply gentle_trans; [apply (gentle_of_ext _ _ _ (N.le_refl _) E1)|]. eapply gentle_trans; [apply (gentle_of_ext _ _ _ N1 E2)|exact G3].
    + right. split; [exact V0|]. exists w, lst, f, F, lk. split; [congruence|]. split; [|split; [|split; [exact Ag|split; [repeat split|split; [intros C; apply HL; apply Un; exact C|intros Y; apply (Hw Y)]]]]].
      * eapply listed_frame; [exact Li|]. intros a Ha. rewrite K3 by (apply Dis; rewrite !in_app_iff; auto). destruct E2 as (_ & _ & K2 & _). apply K2. apply (hold_in _ _ _ a H1). apply in_or_app. right. exact Ha.
      * apply vstate_vch. exists Fv. split; [|exact H4]. eapply vch_frame; [exact Hvc|]. intros a Ha. apply K3. apply Dis. apply in_or_app. left. exact Ha.
Qed.
