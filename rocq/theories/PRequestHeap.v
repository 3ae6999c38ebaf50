(** Proofs about the memory of request.c: setting the attributes of a new
    voucher and signing it. *)
From Coq Require Import Permutation ZifyBool ZifyNat ZifyN.
From Verif Require Import Base PBase MBase64 MSerialize MOs MJsmn MVoucher SVoucher PVoucher SJson PVoucherText PVoucherRound MCrypto MRequest SRequest PRequest
  MHeap MArray MVoucherHeap MConfig MHandlers MSerialHeap MRequestHeap SHeap SArray SVoucherHeap SSerialHeap PHeap PArray PBlocks POwn PHold
  PVoucherHeap PVoucherHeapJson PVoucherHeapOom PAcquire PSerialHeap PSerialHeap3 PSerialHeap4 SRequestHeap.
Open Scope N_scope.

(** *** A voucher and its blocks *)
Definition vch (h : heap) (v : N) (f : attrs) (F : list N) : Prop :=
  exists fs, v <> 0 /\ hp_cell h v = Live (Struct fs) /\ shape fs /\ vals h fs f /\ F = v :: own pf fs.

Lemma vstate_vch : forall base h v f lk, vstate base h v f lk <-> exists F, vch h v f F /\ hold base h (F ++ lk).
Proof.
  intros base h v f lk. split.
  - intros (fs & (W & B & V & C & S & D & G & L) & Hv). exists (v :: own pf fs). split; [exists fs; auto|]. split; [exact W|]. split; [exact B|]. auto.
  - intros (F & (fs & V & C & S & Hv & ->) & (W & B & D & G & L)). exists fs. split; [|exact Hv]. repeat (split; [assumption|]). auto.
Qed.
Lemma vch_frame : forall h h' v f F, vch h v f F -> (forall a, In a F -> hp_cell h' a = hp_cell h a) -> vch h' v f F.
Proof.
  intros h h' v f F (fs & V & C & S & [V1 V2] & ->) K. exists fs. split; [exact V|]. split; [rewrite K by (left; reflexivity); exact C|]. split; [exact S|]. split; [|reflexivity].
  assert (K' : forall i, In i pf -> ptr_at fs i <> 0 -> hp_cell h' (ptr_at fs i) = hp_cell h (ptr_at fs i)) by (intros i Hi Hp; apply K; right; apply own_in; assumption).
  split.
  - unfold ser_at in *. destruct (f ASerial) as [s|]; [|exact V1]. destruct V1 as [P1 [d [P2 P3]]]. split; [exact P1|]. exists d. rewrite K'; [auto|left; reflexivity|exact P1].
  - intros a i Hi. specialize (V2 a i Hi). unfold arr_at in *. destruct (f a) as [d|]; [|exact V2]. destruct V2 as [P1 [P2 P3]]. split; [exact P1|]. split; [|exact P3]. rewrite K'; [exact P2|apply (arr_field_in _ _ Hi)|exact P1].
Qed.
Lemma vstate_wf : forall base h v f lk, vstate base h v f lk -> heap_wf h.
Proof. intros base h v f lk (fs & (W & _) & _). exact W. Qed.
Lemma vstate_nz : forall base h v f lk, vstate base h v f lk -> v <> 0.
Proof. intros base h v f lk (fs & (_ & _ & V & _) & _). exact V. Qed.
Lemma vstate_base : forall base h v f lk, vstate base h v f lk -> base <= v.
Proof. intros base h v f lk (fs & Hc & _). apply (core_base _ _ _ _ _ Hc). Qed.

Lemma vstate_grow : forall base h v f lk h' L, vstate base h v f lk -> ext h h' -> hold (hp_next h) h' L -> vstate base h' v f (L ++ lk).
Proof.
  intros base h v f lk h' L Hs E H. apply vstate_vch in Hs. destruct Hs as (F & HF & H0). pose proof (hold_grow _ _ _ _ _ H0 E H) as H1.
  apply vstate_vch. exists F. split.
  - eapply vch_frame; [exact HF|]. intros a Ha. destruct E as (_ & _ & K & _). apply K. apply (hold_in _ _ _ a H0). apply in_or_app. left. exact Ha.
  - eapply hold_perm; [|exact H1]. rewrite !app_assoc. apply Permutation_app_tail. apply Permutation_app_comm.
Qed.
Lemma gentle_of_ext : forall base h h', base <= hp_next h -> ext h h' -> gentle base h h'.
Proof. intros base h h' B (_ & Hn & K & Ho). split; [intros x Hx; apply K; lia|]. auto. Qed.

(** *** Arguments *)
Lemma array_at_ok : forall h b x, array_at h b x -> array_ok h (fst b) (snd b).
Proof.
  intros h b [y|] H; [|left; exact H]. destruct H as (B0 & fs & p & C & N1 & N2 & D). right. exists fs, p, (ba_len y). repeat (split; [assumption|]).
  destruct (ba_data y) as [d|]; [right; destruct D as (P0 & Cp & Hl); split; [exact P0|]; exists d; auto|left; exact D].
Qed.
Lemma array_at_of : forall h b x, array_at h b x ->
  array_of h (fst b) (snd b) = match x with Some (mk_ba (Some d) n) => Some (firstn (N.to_nat n) d) | _ => None end.
Proof.
  intros h b [y|] H; [|cbn in H; unfold array_of; rewrite H; reflexivity]. destruct H as (B0 & fs & p & C & N1 & N2 & D). rewrite (array_of_at _ _ _ _ _ _ B0 C N1 N2).
  destruct y as [[d|] n]; cbn [ba_data ba_len] in *.
  - destruct D as (P0 & Cp & Hl). rewrite (proj2 (N.eqb_neq _ _) P0). unfold content. rewrite Cp. reflexivity.
  - destruct D as [-> _]. reflexivity.
Qed.
Lemma array_at_frame : forall h h' b x, array_at h b x -> (forall a, is_live h a -> hp_cell h' a = hp_cell h a) -> array_at h' b x.
Proof.
  intros h h' b [y|] H K; [|exact H]. destruct H as (B0 & fs & p & C & N1 & N2 & D). split; [exact B0|]. exists fs, p. split; [rewrite K; [exact C|eexists; exact C]|]. split; [exact N1|]. split; [exact N2|].
  destruct (ba_data y) as [d|]; [|exact D]. destruct D as (P0 & Cp & Hl). split; [exact P0|]. split; [|exact Hl]. rewrite K; [exact Cp|eexists; exact Cp].
Qed.
Lemma array_at_kept : forall n h h' b x, heap_wf h -> n = hp_next h -> kept n h h' -> array_at h b x -> array_at h' b x.
Proof. intros n h h' b x W -> K H. eapply array_at_frame; [exact H|]. intros a Hl. apply K. apply live_below; assumption. Qed.
Lemma string_at_kept : forall n h h' p s, heap_wf h -> n = hp_next h -> kept n h h' -> string_at h p s -> string_at h' p s.
Proof. intros n h h' p [t|] W -> K H; [|exact H]. destruct H as (P0 & Ht & d & C & Q). split; [exact P0|]. split; [exact Ht|]. exists d. split; [|exact Q]. rewrite K; [exact C|]. apply live_below; [exact W|eexists; exact C]. Qed.
Lemma array_at_read : forall h b x, array_at h b x -> h_array h b = Ok x.
Proof.
  intros h b [y|] H; unfold h_array; [|cbn in H; rewrite H; reflexivity]. destruct H as (B0 & fs & p & C & N1 & N2 & D). rewrite (proj2 (N.eqb_neq _ _) B0).
  rewrite (get_ptr_at _ _ _ _ _ B0 C N1). cbn [obind]. rewrite (get_int_at _ _ _ _ _ B0 C N2). cbn [obind]. destruct y as [[d|] n]; cbn [ba_data ba_len] in *.
  - destruct D as (P0 & Cp & _). unfold load_buf. rewrite (proj2 (N.eqb_neq _ _) P0), Cp. cbn [obind]. rewrite N2Z.id. reflexivity.
  - destruct D as [-> ->]. reflexivity.
Qed.
Lemma array_at_barray : forall h p x, array_at h (p, 0%nat) x -> h_barray h p = Ok x.
Proof. intros h p x H. pose proof (array_at_read _ _ _ H) as E. exact E. Qed.
Lemma string_at_read : forall h p t, string_at h p (Some t) -> heap_string h p = Ok t.
Proof. intros h p t (P0 & _ & d & C & Z0 & <-). apply heap_string_exact; assumption. Qed.

(** The argument of a setter. *)
Definition arg_at (h : heap) (v : N) (x : hvalue) (y : avalue) : Prop :=
  match x, y with
  | HTime t, VTime t' => t = t'
  | HInt z, VInt z' => z = z'
  | HStr p, VStr m => exists s, string_at h p s /\ VStr m = vstr s
  | HArr b, VArr z => array_at h b z /\ fst b <> v
  | _, _ => False
  end.

Definition stepped (base : N) (v : N) (h h' : heap) : Prop :=
  gentle base h h' /\ (forall y, y <> v -> is_live h y -> hp_cell h' y = hp_cell h y).
Lemma stepped_refl : forall base v h, stepped base v h h.
Proof. intros. split; [apply gentle_refl|reflexivity]. Qed.

Lemma plain_set : forall w pl a x, (match x with VTime _ | VInt _ => True | _ => False end) ->
  match set_attr true (Some w) a x with
  | UB _ => True
  | Ok (r, w') => (r = (-1)%Z /\ exists z, set_attr true (Some pl) a x = Ok ((-1)%Z, z)) \/
     (r = 0%Z /\ exists p, arg_val a x p /\ w' = Some (put_value w a p) /\ set_attr true (Some pl) a x = Ok (0%Z, Some (put_value pl a p)))
  end.
Proof.
  intros w pl a x Hx. destruct x as [t|z|s|b]; try contradiction.
  - destruct a; cbn [set_attr set_attr_time]; try exact Logic.I; try (left; split; [reflexivity|eexists; reflexivity]); destruct t as [t|]; try exact Logic.I;
      (right; split; [reflexivity|]; exists (PTime t); split; [split; [reflexivity|eauto]|split; reflexivity]).
  - destruct a; cbn [set_attr set_attr_enum set_attr_bool]; try exact Logic.I; try (left; split; [reflexivity|eexists; reflexivity]).
    + unfold set_attr_enum. destruct ((z <? 1)%Z || (3 <? z)%Z) eqn:E; [left; split; [reflexivity|eexists; reflexivity]|].
      right. split; [reflexivity|]. exists (PEnum z). split; [left; split; [reflexivity|split; [lia|reflexivity]]|split; reflexivity].
    + right. split; [reflexivity|]. exists (PBool (negb (z =? 0)%Z)). split; [right; auto|split; reflexivity].
Qed.

Lemma agrees_val : forall f w a x p, agrees f w -> arg_val a x p -> agrees (put_f f a p) (put_value w a p).
Proof.
  intros f w a x p [A1 A2] H. unfold arg_val in H. destruct x as [t|z|s|b].
  - destruct H as (Hk & t' & _ & ->). cbn [put_f]. destruct a; try discriminate; cbn [put_value]; (split; [exact A1|intros b i Hi; rewrite <- (A2 b i Hi); destruct b; reflexivity]).
  - destruct H as [(-> & _ & ->)|(-> & ->)]; cbn [put_f put_value]; (split; [exact A1|intros b i Hi; rewrite <- (A2 b i Hi); destruct b; reflexivity]).
  - destruct H as (-> & mem & _ & _ & ->). cbn [put_f put_value]. split; [reflexivity|]. intros b i Hi. destruct b; try discriminate; unfold upd; cbn; apply (A2 _ _ Hi).
  - destruct H as (Hk & d & _ & ->). cbn [put_f]. destruct a; try discriminate; cbn [put_value]; (split; [exact A1|]); intros b' i Hi; destruct b'; try discriminate; unfold upd; cbn; try reflexivity; apply (A2 _ _ Hi).
Qed.
Lemma same_plain_put : forall w pl a x p, same_plain w pl -> arg_val a x p -> match x with VStr _ | VArr _ => True | _ => False end -> same_plain (put_value w a p) pl.
Proof.
  intros w pl a x p H Hp Hx. destruct x; try contradiction; cbn in Hp.
  - destruct Hp as (-> & mem & _ & _ & ->). exact H.
  - destruct Hp as (Hk & d & _ & ->). destruct a; try discriminate; exact H.
Qed.
Lemma same_plain_both : forall w pl a x p, same_plain w pl -> arg_val a x p -> match x with VTime _ | VInt _ => True | _ => False end -> same_plain (put_value w a p) (put_value pl a p).
Proof.
  intros w pl a x p (H1 & H2 & H3 & H4 & H5) Hp Hx. unfold same_plain. destruct x; try contradiction; cbn in Hp.
  - destruct Hp as (Hk & t' & _ & ->). destruct a; try discriminate; cbn; repeat split; assumption.
  - destruct Hp as [(-> & _ & ->)|(-> & ->)]; cbn; repeat split; assumption.
Qed.
Lemma vstate_ext' : forall base h v f g lk, (forall a, owning a -> f a = g a) -> vstate base h v f lk -> vstate base h v g lk.
Proof.
  intros base h v f g lk E (fs & Hc & V1 & V2). exists fs. split; [exact Hc|]. split; [rewrite <- E by (right; reflexivity); exact V1|].
  intros a i Hi. rewrite <- E; [apply V2; exact Hi|]. left. unfold is_array. rewrite Hi. reflexivity.
Qed.

Section Steps.
Variables (A B : Type) (Q : outcome B -> outcome (option A) -> Prop).
Hypothesis Qub : forall m k, Q m (UB k).
Lemma set_or_step : forall base h v f lk pl w a x y fail k kv,
  vstate base h v f lk -> agrees f w -> same_plain w pl -> (owning a -> f a = None) -> arg_at h v x y ->
  (forall h' f', stepped base v h h' -> vstate base h' v f' lk -> Q (fail h') (Ok None) /\ (refused h h' -> forall t, Q (fail h') t)) ->
  (forall h' pl' p, stepped base v h h' -> arg_val a y p -> vstate base h' v (put_f f a p) lk -> agrees (put_f f a p) (put_value w a p) -> same_plain (put_value w a p) pl' ->
     Q (k pl' h') (kv (put_value w a p))) ->
  Q (h_set_or h v pl a x fail k) (set_or_fail w a y kv).
Proof.
  intros base h v f lk pl w a x y fail k kv Hs Hw Hp Hf Hx Hfail Hk. unfold set_or_fail, h_set_or.
  assert (Plain : forall y, match y with VTime _ | VInt _ => True | _ => False end ->
    (forall h' pl' p, stepped base v h h' -> arg_val a y p -> vstate base h' v (put_f f a p) lk -> agrees (put_f f a p) (put_value w a p) -> same_plain (put_value w a p) pl' -> Q (k pl' h') (kv (put_value w a p))) ->
    Q (obind (obind (set_attr true (Some pl) a y) (fun r => Ok (fst r, match snd r with Some pl => pl | None => pl end, h))) (fun r => let '(rc, pl, h) := r in if (rc <? 0)%Z then fail h else k pl h))
      (obind (set_attr true (Some w) a y) (fun r => if (fst r <? 0)%Z then Ok None else match snd r with Some v' => kv v' | None => UB NullDeref end))).
  { clear Hk. intros y0 Hy Hk. pose proof (plain_set w pl a y0 Hy) as X. destruct (set_attr true (Some w) a y0) as [[r w']|e]; cbn [obind]; [|apply Qub].
    destruct X as [[-> [z ->]]|(-> & p & Hv & -> & ->)]; cbn [obind fst snd Z.ltb Z.compare].
    - exact (proj1 (Hfail h f (stepped_refl _ _ _) Hs)).
    - pose proof (agrees_val f w a y0 p Hw Hv) as Ha. assert (E : put_f f a p = f).
      { destruct y0; try contradiction; cbn in Hv; [destruct Hv as (_ & t' & _ & ->)|destruct Hv as [(_ & _ & ->)|(_ & ->)]]; reflexivity. }
      apply Hk; [apply stepped_refl|exact Hv|rewrite E; exact Hs|exact Ha|eapply same_plain_both; eassumption]. }
  destruct x as [t|z|ptr|b]; destruct y as [t'|z'|m|y]; try contradiction; cbn [arg_at] in Hx.
  - subst t'. apply Plain; [exact Logic.I|exact Hk].
  - subst z'. apply Plain; [exact Logic.I|exact Hk].
  - clear Plain. destruct Hx as (s & Hat & Em). destruct (attr_dec a ASerial) as [->|Hna].
    2:{ cbn [h_set_attr]. destruct a; try congruence; cbn [set_attr obind]; try apply Qub. unfold h_set_attr_str. rewrite (proj2 (N.eqb_neq _ _) (vstate_nz _ _ _ _ _ Hs)). cbn [obind fst snd Z.ltb Z.compare]. exact (proj1 (Hfail h f (stepped_refl _ _ _) Hs)). }
    assert (m = match s with None => None | Some s => Some (s ++ [0]) end) as -> by (unfold vstr in Em; congruence). clear Em.
    cbn [h_set_attr set_attr set_attr_str]. destruct s as [t|]; cbn [string_at] in Hat.
    + destruct Hat as (P0 & Ct & d & Cp & Z0 & Ec). pose proof (set_str_step base h v f lk ptr d Hs P0 Cp Z0) as X. rewrite Ec in X.
      pose proof (set_safe w ASerial (VStr (Some (t ++ [0])))) as Y. cbn [set_attr set_attr_str] in Y.
      assert (Up : upto_nul (t ++ [0]) = t) by (apply upto_nul_end; exact Ct).
      destruct (blen t <? 128) eqn:El.
      * destruct X as (rc & h' & old & Er & G & K & [Hlt L] & Cs). rewrite Er. cbn [obind fst snd]. rewrite (Hf (or_intror eq_refl)) in L. cbn [held] in L. destruct old; [|discriminate]. cbn [app] in Cs.
        assert (Hv : arg_val ASerial (VStr (Some (t ++ [0]))) (PStr t)) by (split; [reflexivity|]; exists (t ++ [0]); rewrite Up; split; [reflexivity|split; [lia|reflexivity]]).
        assert (Es : set_attr true (Some w) ASerial (VStr (Some (t ++ [0]))) = Ok (0%Z, Some (put_value w ASerial (PStr t)))).
        { apply set_put; [exact Hv|]. intros s E. assert (s = Some (t ++ [0])) as -> by congruence. exists t. auto. }
        cbn [set_attr set_attr_str] in Es. destruct Cs as [(-> & Oom & Hs')|(-> & Oom & Hs')]; cbn [Z.ltb Z.compare].
        -- apply (proj2 (Hfail h' (upd f ASerial None) (conj G K) Hs')). apply refused_here; assumption.
        -- rewrite Es. cbn [obind fst snd Z.ltb Z.compare]. apply Hk; [split; assumption|exact Hv|exact Hs'|eapply agrees_val; eassumption|eapply same_plain_put; [exact Hp|exact Hv|exact Logic.I]].
      * rewrite X. cbn [obind fst snd Z.ltb Z.compare]. destruct Y as [(p & Hv & Y)|(w' & Y)].
        -- split; [reflexivity|]. right. exists t. auto.
        -- exfalso. destruct Hv as (_ & mem & E & Hl & _). assert (mem = t ++ [0]) as -> by congruence. rewrite Up in Hl. lia.
        -- rewrite Y. cbn [obind fst snd Z.ltb Z.compare]. exact (proj1 (Hfail h f (stepped_refl _ _ _) Hs)).
    + subst ptr. unfold h_set_attr_str. rewrite (proj2 (N.eqb_neq _ _) (vstate_nz _ _ _ _ _ Hs)). cbn [N.eqb obind fst snd Z.ltb Z.compare]. exact (proj1 (Hfail h f (stepped_refl _ _ _) Hs)).
  - clear Plain. destruct Hx as (Hat & Hne). pose proof (set_array_caller base h v f lk a (fst b) (snd b) Hs (array_at_ok _ _ _ Hat) Hne) as X. cbn [h_set_attr].
    assert (Eb : (fst b, snd b) = b) by (destruct b; reflexivity). rewrite Eb in X. rewrite (array_at_of _ _ _ Hat) in X.
    destruct (kind a) eqn:Hka; try (destruct a; try discriminate; cbn [set_attr obind]; apply Qub).
    + assert (Ia : is_array a = true) by (destruct a; try discriminate; reflexivity). rewrite Ia in X.
      destruct y as [[[d|] n]|].
      * destruct Hat as (_ & fs & p & _ & _ & _ & Hd). cbn [ba_data ba_len] in Hd. destruct Hd as (_ & _ & Hl).
        destruct X as (rc & h' & old & Er & G & K & [Hlt L] & Cs). rewrite Er. cbn [obind fst snd]. rewrite (Hf (or_introl Ia)) in L. cbn [held] in L. destruct old; [|discriminate]. cbn [app] in Cs.
        assert (Hv : arg_val a (VArr (Some (mk_ba (Some d) n))) (PArr (firstn (N.to_nat n) d))).
        { split; [exact Hka|]. eexists. split; [|reflexivity]. exists (mk_ba (Some d) n), (skipn (N.to_nat n) d). split; [reflexivity|]. cbn [ba_data ba_len]. rewrite firstn_skipn. split; [reflexivity|].
          unfold blen in *. rewrite firstn_length. lia. }
        assert (Es : set_attr true (Some w) a (VArr (Some (mk_ba (Some d) n))) = Ok (0%Z, Some (put_value w a (PArr (firstn (N.to_nat n) d))))).
        { apply set_put; [exact Hv|]. intros s E. discriminate E. }
        destruct Cs as [(-> & Oom & Hs')|(-> & Oom & Hs')]; cbn [Z.ltb Z.compare].
        -- apply (proj2 (Hfail h' (upd f a None) (conj G K) Hs')). apply refused_here; assumption.
        -- rewrite Es. cbn [obind fst snd Z.ltb Z.compare]. apply Hk; [split; assumption|exact Hv|exact Hs'|eapply agrees_val; eassumption|eapply same_plain_put; [exact Hp|exact Hv|exact Logic.I]].
      * rewrite X. destruct Hat as (_ & fs & p & _ & _ & _ & _ & Hn). cbn [ba_len] in Hn. subst n.
        cbn [obind fst snd Z.ltb Z.compare]. assert (Es : set_attr true (Some w) a (VArr (Some (mk_ba None 0))) = Ok ((-1)%Z, Some w)) by (destruct a; try discriminate; reflexivity).
        rewrite Es. cbn [obind fst snd Z.ltb Z.compare]. exact (proj1 (Hfail h f (stepped_refl _ _ _) Hs)).
      * rewrite X. cbn [obind fst snd Z.ltb Z.compare]. assert (Es : set_attr true (Some w) a (VArr None) = Ok ((-1)%Z, Some w)) by (destruct a; try discriminate; reflexivity).
        rewrite Es. cbn [obind fst snd Z.ltb Z.compare]. exact (proj1 (Hfail h f (stepped_refl _ _ _) Hs)).
    + destruct a; try discriminate. assert (Es : set_attr true (Some w) (ABad n) (VArr y) = Ok ((-1)%Z, Some w)) by reflexivity. rewrite Es. cbn [is_array arr_field] in X. rewrite X. cbn [obind fst snd Z.ltb Z.compare]. exact (proj1 (Hfail h f (stepped_refl _ _ _) Hs)).
Qed.
End Steps.

(** *** Signing *)
Definition arr_new (h : heap) (p b : N) (d : bytes) : Prop :=
  hp_cell h p = Live (Struct [P b; I (Z.of_N (blen d))]) /\ ((d = [] /\ b = 0) \/ (b <> 0 /\ hp_cell h b = Live (Buf d))).
Definition gets (h : heap) (r : outcome (N * heap)) (t : option bytes) : Prop :=
  match r with
  | UB k => k = NullDeref /\ starved h
  | Ok (p, h') => ext h h' /\
      ((p = 0 /\ hold (hp_next h) h' [] /\ (t = None \/ refused h h')) \/
       (exists d b, t = Some d /\ arr_new h' p b d /\ hold (hp_next h) h' (p :: nz b)))
  end.

Lemma gets_none : forall h, heap_wf h -> gets h (Ok (0, h)) None.
Proof. intros h W. split; [apply ext_refl; exact W|]. left. split; [reflexivity|]. split; [apply hold_init; exact W|left; reflexivity]. Qed.

Lemma kv_free : forall h v pl w, heap_wf h -> in_memory h v pl w -> fits w -> forall attrs acc kvs, Forall (fun it => ~ In 0 (fst it) /\ ~ In 0 (snd it)) acc ->
  voucher_to_keyvalue w attrs acc = Ok (Some kvs) -> Forall (fun it => ~ In 0 (fst it) /\ ~ In 0 (snd it)) kvs.
Proof.
  intros h v pl w W M Fw. induction attrs as [|a attrs IH]; intros acc kvs Ha E; cbn [voucher_to_keyvalue] in E; [assert (kvs = acc) as -> by congruence; exact Ha|].
  destruct (is_attr_nonempty w a); [|eapply IH; eassumption]. rewrite escapestr_quote in E. cbn [obind] in E. destruct (serialize_attr w a) as [x|k] eqn:Ex; [|discriminate]. cbn [obind] in E.
  destruct x as [x|]; [|discriminate]. eapply IH; [|exact E]. apply Forall_app. split; [exact Ha|]. constructor; [|constructor]. cbn [fst snd].
  split; [|apply (proj2 (attr_gives h v pl w a _ W M Fw Ex) x eq_refl)]. apply quote_free. intros X. destruct a; cbn [attr_name] in X; vm_compute in X; repeat (destruct X as [X|X]; [discriminate|]); exact X.
Qed.
Lemma serialize_free : forall h v pl w t, heap_wf h -> in_memory h v pl w -> fits w -> serialize_voucher (Some w) = Ok (Some t) -> ~ In 0 t.
Proof.
  intros h v pl w t W M Fw E. unfold serialize_voucher, serialize_child_voucher in E. destruct (voucher_to_keyvalue w all_attrs []) as [[kvs|]|k] eqn:Ek; cbn [obind] in E; try discriminate.
  pose proof (kv_free h v pl w W M Fw _ _ _ (Forall_nil _) Ek) as Fk. destruct (serialize_keyvalue2json (Some kvs)) as [[c|]|k] eqn:Ec; cbn [obind] in E; try discriminate.
  pose proof (json_free kvs c Fk Ec) as Zc. rewrite escapestr_quote in E. cbn [obind] in E. eapply json_free; [|exact E]. constructor; [|constructor]. cbn [fst snd]. split; [|exact Zc].
  apply quote_free. intros X. vm_compute in X. repeat (destruct X as [X|X]; [discriminate|]). exact X.
Qed.

Lemma sign_gets : forall o h v pl w cert key certs c k l r, heap_wf h -> in_memory h v pl w -> fits w ->
  array_at h (cert, 0%nat) c -> array_at h (key, 0%nat) k -> h_certlist h certs = Ok l ->
  sign_cms_voucher o (Some w) c k l = Ok r -> gets h (h_sign_cms_voucher o h v pl cert key certs) r.
Proof.
  intros o h v pl w cert key certs c k l r W M Fw Hc Hk Hl Er. unfold h_sign_cms_voucher. pose proof M as (V0 & _). rewrite (proj2 (N.eqb_neq _ _) V0).
  unfold sign_cms_voucher, sign_voucher in Er. pose proof (array_at_barray _ _ _ Hc) as Rc. pose proof (array_at_barray _ _ _ Hk) as Rk.
  destruct c as [c|]; [|cbn in Hc; subst cert; cbn [N.eqb]; injection Er as <-; apply gets_none; exact W]. rewrite (proj2 (N.eqb_neq _ _) (proj1 Hc : cert <> 0)).
  destruct k as [k|]; [|cbn in Hk; subst key; cbn [N.eqb]; injection Er as <-; apply gets_none; exact W]. rewrite (proj2 (N.eqb_neq _ _) (proj1 Hk : key <> 0)).
  destruct (serialize_voucher (Some w)) as [t|e] eqn:Et; [|discriminate]. cbn [obind] in Er.
  pose proof (serialize_gives h v pl w t W M Fw Et) as G. destruct (h_serialize_voucher h v pl) as [[s h1]|e]; cbn [obind]; [|exact G].
  destruct G as [E1 G]. destruct G as [(-> & H1 & Q)|(text & -> & Cs & H1)].
  { cbn [N.eqb]. split; [exact E1|]. left. split; [reflexivity|]. split; [exact H1|]. destruct Q as [->|Q]; [left; congruence|right; exact Q]. }
  destruct (hold_in _ _ _ s H1 (or_introl eq_refl)) as (_ & S0 & _ & Sb). rewrite (proj2 (N.eqb_neq _ _) S0).
  destruct (hold_alloc _ _ _ (Struct [P 0; I 0]) H1) as (cms & h2 & Ea & E2 & Hn2 & C2). rewrite Ea.
  pose proof (ext_trans _ _ _ E1 E2) as E12. pose proof E1 as (W1 & N1 & K1 & O1). pose proof E2 as (W2 & N2 & K2 & O2).
  destruct C2 as [(-> & Oom2 & X2 & H2)|(Hcms & C0 & Oom2 & Cc & X2 & H2)].
  { cbn [N.eqb]. destruct (hold_free _ _ _ _ H2) as [F3 H3]. rewrite F3. cbn [obind]. split; [eapply ext_put_held; [exact E12|exact H2|left; reflexivity]|]. left. split; [reflexivity|]. split; [exact H3|]. right.
    exists (hp_next h1). split; [cbn [put hp_next]; lia|]. rewrite <- O1. exact Oom2. }
  rewrite (proj2 (N.eqb_neq _ _) C0).
  assert (Cs2 : hp_cell h2 s = Live (Buf (text ++ [0]))). { rewrite X2; [exact Cs|]. rewrite Hcms. apply N.lt_neq. apply (hold_in _ _ _ s H1 (or_introl eq_refl)). }
  assert (Tx : heap_string h2 s = Ok text). { rewrite (heap_string_exact h2 s (text ++ [0])); [|exact S0|exact Cs2|apply in_or_app; right; left; reflexivity]. f_equal. apply (c_string_plain text []). eapply serialize_free; [exact W|exact M|exact Fw|exact Et]. }
  rewrite Tx. cbn [obind]. rewrite (ext_barray _ _ _ _ W E12 Rc), (ext_barray _ _ _ _ W E12 Rk), (ext_certlist _ _ _ _ W E12 Hl). cbn [obind]. rewrite Er. cbn [obind].
  assert (Hsc : s <> cms). { intros X. rewrite X in Cs2. congruence. }
  assert (Fail : forall hb, ext h hb -> hold (hp_next h) hb [cms; s] -> hp_cell hb cms = Live (Struct [P 0; I 0]) -> (r = None \/ refused h hb) ->
    gets h (obind (set_field hb cms 0 (P 0)) (fun h => obind (sys_free h s) (fun h => obind (h_free_binary_array h cms) (fun h => Ok (0, h))))) r).
  { intros hb Eb Hb Cb Qb. rewrite (set_field_at _ _ _ 0%nat (P 0) _ C0 Cb eq_refl). cbn [obind set_nthv].
    pose proof (hold_put _ _ _ cms (Struct [P 0; I 0]) Hb (or_introl eq_refl)) as H3. pose proof (ext_put_held _ _ _ cms (Live (Struct [P 0; I 0])) Eb Hb (or_introl eq_refl)) as E3.
    set (h3 := put hb cms (Live (Struct [P 0; I 0]))) in *. pose proof (hold_perm _ _ _ _ (perm_swap s cms []) H3) as H3'.
    destruct (hold_free _ _ _ _ H3') as [F4 H4]. rewrite F4. cbn [obind]. pose proof (ext_put_held _ _ _ s Freed E3 H3' (or_introl eq_refl)) as E4.
    assert (C4 : hp_cell (put h3 s Freed) cms = Live (Struct [P 0; I 0])) by (rewrite put_other by (intros X; apply Hsc; congruence); apply put_same). set (h4 := put h3 s Freed) in *.
    unfold h_free_binary_array. rewrite (proj2 (N.eqb_neq _ _) C0). rewrite (get_ptr_at _ _ _ 0%nat 0 C0 C4 eq_refl). cbn [obind N.eqb].
    rewrite (set_field_at _ _ _ 1%nat (I 0) _ C0 C4 eq_refl). cbn [obind set_nthv].
    pose proof (hold_put _ _ _ cms (Struct [P 0; I 0]) H4 (or_introl eq_refl)) as H5. pose proof (ext_put_held _ _ _ cms (Live (Struct [P 0; I 0])) E4 H4 (or_introl eq_refl)) as E5.
    destruct (hold_free _ _ _ _ H5) as [F6 H6]. rewrite F6. cbn [obind gets]. split; [eapply ext_put_held; [exact E5|exact H5|left; reflexivity]|]. left. split; [reflexivity|]. split; [exact H6|].
    destruct Qb as [Qb|Qb]; [left; exact Qb|right]. eapply refused_later; [exact Qb|]. cbn [put hp_next]. apply N.le_refl. }
  destruct r as [d|]; [|cbn [h_bio_to_ptr Z.ltb Z.compare]; apply Fail; [exact E12|exact H2|exact Cc|left; reflexivity]].
  assert (Good : forall hb b, ext h hb -> hold (hp_next h) hb (cms :: s :: nz b) -> hp_cell hb cms = Live (Struct [P 0; I 0]) -> ((d = [] /\ b = 0) \/ (b <> 0 /\ hp_cell hb b = Live (Buf d))) ->
    gets h (obind (set_field hb cms 0 (P b)) (fun h => obind (sys_free h s) (fun h => obind (set_field h cms 1 (I (Z.of_N (blen d)))) (fun h => Ok (cms, h))))) (Some d)).
  { intros hb b Eb Hb Cb Qb. rewrite (set_field_at _ _ _ 0%nat (P b) _ C0 Cb eq_refl). cbn [obind set_nthv].
    pose proof (hold_put _ _ _ cms (Struct [P b; I 0]) Hb (or_introl eq_refl)) as H3. pose proof (ext_put_held _ _ _ cms (Live (Struct [P b; I 0])) Eb Hb (or_introl eq_refl)) as E3.
    set (h3 := put hb cms (Live (Struct [P b; I 0]))) in *. pose proof (hold_perm _ _ _ _ (perm_swap s cms _) H3) as H3'.
    destruct (hold_free _ _ _ _ H3') as [F4 H4]. rewrite F4. cbn [obind]. pose proof (ext_put_held _ _ _ s Freed E3 H3' (or_introl eq_refl)) as E4.
    assert (C4 : hp_cell (put h3 s Freed) cms = Live (Struct [P b; I 0])) by (rewrite put_other by (intros X; apply Hsc; congruence); apply put_same). set (h4 := put h3 s Freed) in *.
    rewrite (set_field_at _ _ _ 1%nat (I (Z.of_N (blen d))) _ C0 C4 eq_refl). cbn [obind set_nthv gets].
    pose proof (hold_put _ _ _ cms (Struct [P b; I (Z.of_N (blen d))]) H4 (or_introl eq_refl)) as H5. pose proof (ext_put_held _ _ _ cms (Live (Struct [P b; I (Z.of_N (blen d))])) E4 H4 (or_introl eq_refl)) as E5.
    split; [exact E5|]. right. exists d, b. split; [reflexivity|]. split; [|exact H5]. split; [apply put_same|]. destruct Qb as [Qb|[B0 Qb]]; [left; exact Qb|right]. split; [exact B0|].
    pose proof Hb as (_ & _ & D & _). unfold nz in D. rewrite (proj2 (N.eqb_neq _ _) B0) in D. apply NoDup_cons_iff in D. destruct D as [D1 D2]. apply NoDup_cons_iff in D2. destruct D2 as [D2 _].
    assert (Bc : b <> cms) by (intros X; apply D1; right; left; congruence). assert (Bs : b <> s) by (intros X; apply D2; left; congruence).
    rewrite put_other by exact Bc. unfold h4. rewrite put_other by exact Bs. unfold h3. rewrite put_other by exact Bc. exact Qb. }
  destruct d as [|d0 d]; cbn [h_bio_to_ptr].
  - cbn [Z.ltb Z.compare]. change 0%Z with (Z.of_N (blen [])). apply Good; [exact E12|exact H2|exact Cc|left; auto].
  - destruct (hold_alloc _ _ _ (Buf (d0 :: d)) H2) as (b & h3 & Eb & E3 & Hn3 & C3). rewrite Eb. pose proof (ext_trans _ _ _ E12 E3) as E13. destruct C3 as [(-> & Oom3 & X3 & H3)|(Hb & B0 & Oom3 & Cb & X3 & H3)].
    + cbn [N.eqb Z.ltb Z.compare]. apply Fail; [exact E13|exact H3|rewrite X3; exact Cc|]. right. exists (hp_next h2). split; [lia|]. rewrite <- O1, <- O2. exact Oom3.
    + rewrite (proj2 (N.eqb_neq _ _) B0). destruct (Z.of_N (blen (d0 :: d)) <? 0)%Z eqn:Q; [lia|]. apply Good; [exact E13| |rewrite X3; [exact Cc|]|right; auto].
      * unfold nz. rewrite (proj2 (N.eqb_neq _ _) B0). eapply hold_perm; [|exact H3]. apply (Permutation_app_comm [b] [cms; s]).
      * intros X. rewrite Hb in X. destruct (hold_in _ _ _ cms H2 (or_introl eq_refl)) as (_ & _ & Y & _). lia.
Qed.
