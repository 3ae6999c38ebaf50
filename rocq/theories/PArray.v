(** Proofs about the lists of array.c and keyvalue.c. *)
From Verif Require Import Base PBase MOs MHeap MArray SHeap SArray PHeap.
Open Scope N_scope.

Lemma alloc_cases : forall h b, heap_wf h -> exists a h', alloc h b = (a, h') /\ heap_wf h' /\ hp_next h' = hp_next h + 1 /\ hp_oom h' = hp_oom h /\
  ((a = 0 /\ hp_oom h (hp_next h) = true /\ forall x, hp_cell h' x = hp_cell h x) \/
   (a = hp_next h /\ a <> 0 /\ hp_oom h (hp_next h) = false /\ hp_cell h' a = Live b /\ hp_cell h a = Fresh /\ forall x, x <> a -> hp_cell h' x = hp_cell h x)).
Proof.
  intros h b [W1 [W2 W3]]. unfold alloc. destruct (hp_oom h (hp_next h)) eqn:E.
  - eexists _, _. split; [reflexivity|]. split; [|split; [reflexivity|split; [reflexivity|left; auto]]].
    split; [cbn; lia|]. split; [exact W2|]. intros a Ha. cbn in *. apply W3. lia.
  - eexists _, _. split; [reflexivity|]. split; [|split; [reflexivity|split; [reflexivity|right]]].
    + split; [cbn; lia|]. split; [rewrite put_other by lia; exact W2|]. intros a Ha. cbn in Ha. rewrite put_other by lia. cbn. apply W3. lia.
    + split; [reflexivity|]. split; [lia|]. split; [reflexivity|]. split; [apply put_same|]. split; [apply W3; lia|]. intros x Hx. rewrite put_other by exact Hx. reflexivity.
Qed.

Section Good.
Variable off : nat.
Variable owned : list nat.
Variable hpre : list val.
Variable base : N.

Definition print (ns : nodes) (H : N) : list N := H :: map fst ns ++ bufs owned ns.
Definition good (h : heap) (H : N) (ns : nodes) : Prop :=
  heap_wf h /\ base <= hp_next h /\ list_ok off owned h H hpre ns /\
  (forall a, In a (print ns H) -> base <= a) /\ (forall a, base <= a -> is_live h a -> In a (print ns H)).

Lemma good_frame : forall h h' H ns, good h H ns -> heap_wf h' -> hp_next h <= hp_next h' -> (forall a, base <= a -> hp_cell h' a = hp_cell h a) -> good h' H ns.
Proof.
  intros h h' H ns [G1 [G2 [G3 [G4 G5]]]] W Hn Hc. split; [exact W|]. split; [lia|]. split; [|split; [exact G4|]].
  - eapply list_frame; [|exact G3]. intros a Ha. apply Hc. apply G4. exact Ha.
  - intros a Ha [b Hb]. apply G5; [exact Ha|]. exists b. rewrite <- Hc by exact Ha. exact Hb.
Qed.

Lemma good_add : forall h hn H ns it ipre n p e,
  good h H ns -> heap_wf hn -> base <= hp_next hn -> it <> 0 -> payload off ipre -> fields_ok owned ipre -> hp_cell hn it = node ipre n p e ->
  NoDup (it :: own owned ipre) -> (forall a, In a (it :: own owned ipre) -> base <= a /\ hp_cell h a = Fresh) ->
  (forall a, In a (own owned ipre) -> is_live hn a) ->
  (forall a, ~ In a (it :: own owned ipre) -> hp_cell hn a = hp_cell h a) ->
  exists h', dl_list_add_tail off hn H it it = Ok h' /\ good h' H (ns ++ [(it, ipre)]) /\
    hp_next h' = hp_next hn /\ hp_oom h' = hp_oom hn /\ kept base h h' /\
    (forall a, In a (own owned ipre) -> hp_cell h' a = hp_cell hn a) /\
    (forall a, In a (bufs owned ns) -> hp_cell h' a = hp_cell h a).
Proof.
  intros h hn H ns it ipre n p e [G1 [G2 [G3 [G4 G5]]]] W Wb I0 Ip If Ic Nd Fr Lv Oth.
  assert (Dis : forall a, In a (it :: own owned ipre) -> ~ In a (print ns H)).
  { intros a Ha Hin. destruct (Fr a Ha) as [_ F]. destruct (list_live off owned h H hpre ns a G3 Hin) as [b Hb]. congruence. }
  assert (G3' : list_ok off owned hn H hpre ns).
  { eapply list_frame; [|exact G3]. intros a Ha. apply Oth. intros Hin. exact (Dis a Hin Ha). }
  destruct (add_ok off owned hn H hpre ns it ipre n p e G3' I0 Ip If Ic Nd Dis Lv) as [h' [F1 [F2 [F3 [F4 F5]]]]].
  assert (Hfp : forall a, In a (print (ns ++ [(it, ipre)]) H) <-> In a (print ns H) \/ In a (it :: own owned ipre)).
  { intros a. unfold print. rewrite bufs_app, map_app. unfold bufs at 2. cbn [map flat_map fst snd]. rewrite app_nil_r. cbn [In]. rewrite !in_app_iff. cbn [In]. tauto. }
  exists h'. split; [exact F1|].
  assert (Own : forall a, In a (own owned ipre) -> hp_cell h' a = hp_cell hn a).
  { intros a Ha. apply F5. intros [<-|[<-|Hin]].
    - apply (Dis H (or_intror Ha)). left. reflexivity.
    - inversion Nd; contradiction.
    - apply (Dis a (or_intror Ha)). right. apply in_or_app. left. exact Hin. }
  assert (Bf : forall a, In a (bufs owned ns) -> hp_cell h' a = hp_cell h a).
  { intros a Ha. assert (Hp : In a (print ns H)) by (right; apply in_or_app; right; exact Ha). rewrite F5.
    - apply Oth. intros Hin. exact (Dis a Hin Hp).
    - destruct G3 as [_ [_ [_ [_ [D _]]]]]. inversion D as [|? ? D1 D2]; subst. intros [<-|[<-|Hin]].
      + apply D1. apply in_or_app. right. exact Ha.
      + exact (Dis it (or_introl eq_refl) Hp).
      + apply in_split in Hin. destruct Hin as [u [v E]]. rewrite E in D2. rewrite <- app_assoc in D2. cbn [app] in D2.
        apply NoDup_remove_2 in D2. apply D2. apply in_or_app. right. apply in_or_app. right. exact Ha. }
  split; [|split; [exact F3|split; [exact F4|split; [|split; [exact Own|exact Bf]]]]].
  - split.
    { destruct W as [W1 [W2 W3]]. split; [rewrite F3; exact W1|].
      assert (K : forall a, hp_cell hn a = Fresh -> hp_cell h' a = Fresh).
      { intros a Ha. rewrite F5; [exact Ha|]. intros Hin.
        assert (L : is_live hn a).
        { destruct Hin as [<-|[<-|Hin]].
          - apply (list_live off owned hn H hpre ns H G3'). left. reflexivity.
          - eexists. exact Ic.
          - apply (list_live off owned hn H hpre ns a G3'). right. apply in_or_app. left. exact Hin. }
        destruct L as [b Hb]. congruence. }
      split; [apply K; exact W2|]. intros a Ha. apply K. apply W3. rewrite <- F3. exact Ha. }
    split; [rewrite F3; exact Wb|]. split; [exact F2|]. split.
    + intros a Ha. apply Hfp in Ha. destruct Ha as [Ha|Ha]; [apply G4; exact Ha|apply Fr; exact Ha].
    + intros a Ha Hl. apply Hfp. destruct (in_dec N.eq_dec a (it :: own owned ipre)) as [Hin|Hin]; [right; exact Hin|left].
      destruct (in_dec N.eq_dec a (print ns H)) as [Hp|Hp]; [exact Hp|]. apply G5; [exact Ha|].
      destruct Hl as [b Hb]. exists b. rewrite <- Oth by exact Hin. rewrite <- F5; [exact Hb|].
      intros [<-|[<-|Q]]; [apply Hp; left; reflexivity|apply Hin; left; reflexivity|apply Hp; right; apply in_or_app; left; exact Q].
  - intros a Ha. assert (Hp : ~ In a (print ns H)) by (intros Q; apply G4 in Q; lia).
    assert (Hi : ~ In a (it :: own owned ipre)) by (intros Q; apply Fr in Q; lia).
    rewrite F5, Oth; auto. intros [<-|[<-|Q]]; [apply Hp; left; reflexivity|apply Hi; left; reflexivity|apply Hp; right; apply in_or_app; left; exact Q].
Qed.

Lemma good_free : forall h H ns, good h H ns -> exists h', free_list off owned h H = Ok h' /\ kept base h h' /\ no_leak base h' /\ hp_next h' = hp_next h /\ heap_wf h' /\ hp_oom h' = hp_oom h.
Proof.
  intros h H ns [G1 [G2 [G3 [G4 G5]]]].
  destruct (free_list_ok off owned h H hpre ns G1 G3) as [h' [F1 [[F2 F3] [F4 F5]]]].
  exists h'. split; [exact F1|]. split; [|split; [|split; [exact F4|split; [|exact F5]]]].
  - intros a Ha. apply F3. intros Hin. apply (G4 a) in Hin. lia.
  - intros a Ha [b Hb]. destruct (in_dec N.eq_dec a (print ns H)) as [Hin|Hin].
    + destruct (F2 a Hin) as [_ Q]. congruence.
    + apply Hin. apply G5; [exact Ha|]. exists b. rewrite <- F3 by exact Hin. exact Hb.
  - destruct G1 as [W1 [W2 W3]]. split; [lia|].
    assert (K : forall a, hp_cell h a = Fresh -> hp_cell h' a = Fresh).
    { intros a Ha. rewrite F3; [exact Ha|]. intros Hin. destruct (F2 a Hin) as [[b Hb] _]. congruence. }
    split; [apply K; exact W2|]. intros a Ha. apply K. apply W3. lia.
Qed.
End Good.

(** *** Creation *)
Lemma init_good : forall off owned hpre h H h1, heap_wf h -> payload off hpre -> fields_ok owned hpre -> own owned hpre = [] ->
  init_list off (Struct (hpre ++ [P 0; P 0; P 0])) h = Ok (H, h1) -> H <> 0 ->
  good off owned hpre (hp_next h) h1 H [] /\ H = hp_next h /\ kept (hp_next h) h h1 /\ hp_oom h1 = hp_oom h.
Proof.
  intros off owned hpre h H h1 W Hp Hf Ho E H0. unfold init_list in E.
  destruct (alloc_cases h (Struct (hpre ++ [P 0; P 0; P 0])) W) as [a [h' [Ea [W' [Hn [Hoo C]]]]]]. rewrite Ea in E. clear Ea.
  destruct (a =? 0) eqn:A0; [inversion E; congruence|]. apply N.eqb_neq in A0.
  destruct C as [[-> _]|[Ha [_ [_ [Hc [Hfr Hx]]]]]]; [congruence|].
  unfold dl_list_init in E.
  rewrite (set_next off h' a hpre 0 0 0 a A0 Hp Hc) in E. cbn [obind] in E.
  erewrite (set_prev off) in E; [|exact A0|exact Hp|apply put_same]. cbn [obind] in E.
  erewrite (set_el off) in E; [|exact A0|exact Hp|apply put_same]. cbn [obind] in E. injection E as <- <-.
  split; [|split; [exact Ha|split; [|cbn; exact Hoo]]].
  - assert (Hcell : forall x, x <> a -> hp_cell (put (put (put h' a (node hpre a 0 0)) a (node hpre a a 0)) a (node hpre a a a)) x = hp_cell h x).
    { intros x Hxx. rewrite !put_other by exact Hxx. apply Hx. exact Hxx. }
    split; [|split; [|split; [|split]]].
    + destruct W' as [W1 [W2 W3]]. destruct W as [V1 [V2 V3]]. split; [cbn; exact W1|]. split; [rewrite Hcell by congruence; exact V2|].
      intros x Hxx. cbn in Hxx. rewrite Hcell by lia. apply V3. lia.
    + cbn. lia.
    + split; [|split; [constructor|split; [exact Hf|split; [exact Ho|split]]]].
      * split; [exact Hp|]. split; [exact A0|]. split; [apply put_same|]. split; [exact Logic.I|]. cbn. constructor; [intros []|constructor].
      * cbn. constructor; [intros []|constructor].
      * intros x [].
    + intros x [<-|[]]. lia.
    + intros x Hge [b Hb]. destruct (N.eq_dec x a) as [->|Hne]; [left; reflexivity|]. rewrite Hcell in Hb by exact Hne. destruct W as [_ [_ V3]]. rewrite V3 in Hb by exact Hge. discriminate.
  - intros x Hl. rewrite !put_other by lia. apply Hx. lia.
Qed.

(** *** Array lists *)
Definition apre : list val := [P 0; I 0; I 0].
Definition agood := good 3 [0%nat] apre.
Definition aitem (h : heap) (n : N * list val) (it : bytes * Z) : Prop :=
  exists b, b <> 0 /\ snd n = [P b; I (Z.of_N (blen (fst it))); I (snd it)] /\ hp_cell h b = Live (Buf (fst it)).

Lemma zero_node_crash : forall off owned h el pre, el <> 0 -> payload off pre -> hp_cell h el = node pre 0 0 0 ->
  forall h', free_fields h el owned = Ok h' -> hp_cell h' el = hp_cell h el -> free_list_el off owned h el = UB NullDeref.
Proof.
  intros off owned h el pre E0 Hp Hc h' Hf Hk. unfold free_list_el. rewrite (proj2 (N.eqb_neq _ _) E0). rewrite Hf. cbn [obind].
  unfold dl_list_del. rewrite (get_next off h' el pre 0 0 0 E0 Hp) by congruence. cbn [obind].
  rewrite (get_prev off h' el pre 0 0 0 E0 Hp) by congruence. cbn [obind]. unfold set_field at 1. unfold load. reflexivity.
Qed.

Lemma aitem_frame : forall h h' ns items, Forall2 (aitem h) ns items -> (forall a, In a (bufs [0%nat] ns) -> hp_cell h' a = hp_cell h a) -> Forall2 (aitem h') ns items.
Proof.
  intros h h' ns items F. induction F as [|n it ns items H1 H2 IH]; intros Hc; [constructor|]. constructor.
  - destruct H1 as [b [B0 [Hs Hb]]]. exists b. split; [exact B0|]. split; [exact Hs|]. rewrite Hc; [exact Hb|].
    unfold bufs. cbn [flat_map]. apply in_or_app. left. rewrite Hs. unfold own, ptr_at. cbn [map nth_error filter]. rewrite (proj2 (N.eqb_neq _ _) B0). left. reflexivity.
  - apply IH. intros a Ha. apply Hc. unfold bufs. cbn [flat_map]. apply in_or_app. right. exact Ha.
Qed.

Lemma push_array_ok : forall base h H ns items arr len fl, agood base h H ns -> Forall2 (aitem h) ns items ->
  match push_array_list h H arr len fl with
  | UB k =>
    arr <> 0 /\ hp_oom h (hp_next h) = false /\
    ((hp_oom h (hp_next h + 1) = true /\ k = NullDeref) \/
     (hp_oom h (hp_next h + 1) = false /\ (forall d, hp_cell h arr = Live (Buf d) -> blen d < len)))
  | Ok (rc, h') =>
    kept base h h' /\ hp_oom h' = hp_oom h /\ hp_next h <= hp_next h' /\
    ((rc = (-1)%Z /\ (arr = 0 \/ hp_oom h (hp_next h) = true) /\ (forall x, hp_cell h' x = hp_cell h x) /\ agood base h' H ns) \/
     (rc = 0%Z /\ exists d n, hp_cell h arr = Live (Buf d) /\ len <= blen d /\
        agood base h' H (ns ++ [n]) /\ Forall2 (aitem h') (ns ++ [n]) (items ++ [(firstn (N.to_nat len) d, fl)]) /\
        hp_oom h (hp_next h) = false /\ hp_oom h (hp_next h + 1) = false))
  end.
Proof.
  intros base h H ns items arr len fl G F. unfold push_array_list.
  pose proof G as [W [Wb [[[_ [H0 _]] _] _]]]. rewrite (proj2 (N.eqb_neq _ _) H0).
  destruct (arr =? 0) eqn:A0.
  { apply N.eqb_eq in A0. split; [intros x _; reflexivity|]. split; [reflexivity|]. split; [lia|]. left. split; [reflexivity|]. split; [left; exact A0|]. split; [reflexivity|exact G]. }
  apply N.eqb_neq in A0.
  destruct (alloc_cases h arr_node W) as [el [h1 [Ea [W1 [Hn1 [Ho1 C1]]]]]]. rewrite Ea. clear Ea.
  destruct C1 as [[-> [Oom Cx]]|[Hel [El0 [Oom [Cel [Cfr Cx]]]]]].
  { cbn [N.eqb]. split; [intros x _; apply Cx|]. split; [exact Ho1|]. split; [lia|]. left. split; [reflexivity|]. split; [right; exact Oom|]. split; [exact Cx|].
    eapply good_frame; [exact G|exact W1|lia|]. intros a _. apply Cx. }
  rewrite (proj2 (N.eqb_neq _ _) El0). unfold heap_memdup. rewrite (proj2 (N.eqb_neq _ _) A0). rewrite Ho1, Hn1.
  destruct (hp_oom h (hp_next h + 1)) eqn:Oom2.
  { unfold alloc. rewrite Ho1, Hn1, Oom2. cbn [obind].
    unfold set_field at 1. rewrite (load_struct _ el [P 0; I 0; I 0; P 0; P 0; P 0] El0) by (cbn [hp_cell]; exact Cel). cbn [obind nth_error set_nthv N.eqb].
    erewrite (zero_node_crash 3 [0%nat] _ el apre El0 eq_refl).
    - cbn [obind]. split; [exact A0|]. split; [exact Oom|]. left. auto.
    - apply put_same.
    - cbn [free_fields]. erewrite get_ptr_at; [|exact El0|apply put_same|reflexivity]. cbn [obind N.eqb]. reflexivity.
    - reflexivity. }
  destruct (hp_cell h arr) as [|blk|] eqn:Earr.
  { unfold load_buf. rewrite (proj2 (N.eqb_neq _ _) A0). destruct (N.eq_dec arr el) as [->|Hae].
    - rewrite Cel. unfold arr_node. cbn [obind]. split; [exact A0|]. split; [exact Oom|]. right. split; [reflexivity|]. intros d Hd. discriminate.
    - rewrite Cx, Earr by exact Hae. cbn [obind]. split; [exact A0|]. split; [exact Oom|]. right. split; [reflexivity|]. intros d Hd. discriminate. }
  2:{ unfold load_buf. rewrite (proj2 (N.eqb_neq _ _) A0). rewrite Cx, Earr by congruence. cbn [obind]. split; [exact A0|]. split; [exact Oom|]. right. split; [reflexivity|]. intros d Hd. discriminate. }
  assert (Hae : arr <> el) by congruence.
  destruct blk as [d|fs].
  2:{ unfold load_buf. rewrite (proj2 (N.eqb_neq _ _) A0). rewrite Cx, Earr by congruence. cbn [obind]. split; [exact A0|]. split; [exact Oom|]. right. split; [reflexivity|]. intros d Hd. discriminate. }
  assert (Hl : load_buf h1 arr = Ok (Some d)). { unfold load_buf. rewrite (proj2 (N.eqb_neq _ _) A0). rewrite Cx, Earr by congruence. reflexivity. }
  rewrite Hl. cbn [obind]. unfold sys_memdup, take_mem. cbn [negb]. destruct (len <=? blen d) eqn:Hle; cbn [obind].
  2:{ split; [exact A0|]. split; [exact Oom|]. right. split; [reflexivity|]. intros d' Hd'. injection Hd' as <-. lia. }
  set (c := firstn (N.to_nat len) d).
  destruct (alloc_cases h1 (Buf c) W1) as [b [h2 [Eb [W2 [Hn2 [Ho2 C2]]]]]]. rewrite Eb. clear Eb.
  destruct C2 as [[-> [Q _]]|[Hb [B0 [_ [Cb [Cbf Cy]]]]]]; [rewrite Ho1, Hn1, Oom2 in Q; discriminate|].
  assert (Hbe : el <> b) by lia.
  assert (Cel2 : hp_cell h2 el = Live (Struct [P 0; I 0; I 0; P 0; P 0; P 0])) by (rewrite Cy by exact Hbe; exact Cel).
  erewrite set_field_at; [|exact El0|exact Cel2|reflexivity]. cbn [obind set_nthv]. rewrite (proj2 (N.eqb_neq _ _) B0).
  erewrite set_field_at; [|exact El0|apply put_same|reflexivity]. cbn [obind set_nthv].
  erewrite set_field_at; [|exact El0|apply put_same|reflexivity]. cbn [obind set_nthv].
  match goal with |- context [dl_list_add_tail _ ?x _ _ _] => set (hn := x) end.
  assert (Hlen : blen c = len). { unfold c, blen in *. rewrite firstn_length. lia. }
  assert (Fb : hp_cell h b = Fresh) by (rewrite <- Cx by lia; exact Cbf).
  assert (Own : own [0%nat] [P b; I (Z.of_N len); I fl] = [b]).
  { unfold own, ptr_at. cbn [map nth_error filter]. rewrite (proj2 (N.eqb_neq _ _) B0). reflexivity. }
  destruct (good_add 3 [0%nat] apre base h hn H ns el [P b; I (Z.of_N len); I fl] 0 0 0 G) as [h' [F1 [F2 [F3 [F4 [F5 [F6 F7]]]]]]].
  - destruct W2 as [V1 [V2 V3]]. split; [exact V1|]. split; [unfold hn; rewrite !put_other by congruence; exact V2|].
    intros a Ha. unfold hn in *. cbn [put hp_next] in Ha. rewrite !put_other by lia. apply V3. exact Ha.
  - unfold hn. cbn [put hp_next]. lia.
  - exact El0.
  - reflexivity.
  - intros i [<-|[]]. eexists. reflexivity.
  - unfold hn. apply put_same.
  - rewrite Own. constructor; [intros [E|[]]; congruence|]. constructor; [intros []|constructor].
  - rewrite Own. intros a [<-|[<-|[]]]; (split; [lia|assumption]).
  - rewrite Own. intros a [<-|[]]. exists (Buf c). unfold hn. rewrite !put_other by congruence. exact Cb.
  - rewrite Own. intros a Ha. unfold hn. cbn [In] in Ha. assert (a <> el /\ a <> b) as [Q1 Q2] by (split; intros ->; tauto).
    rewrite !put_other by exact Q1. rewrite Cy by exact Q2. apply Cx. exact Q1.
  - unfold arr_off. rewrite F1. cbn [obind]. split; [exact F5|]. split; [rewrite F4; unfold hn; cbn [put hp_oom]; congruence|].
    split; [rewrite F3; unfold hn; cbn [put hp_next]; lia|]. right. split; [reflexivity|]. exists d, (el, [P b; I (Z.of_N len); I fl]). split; [reflexivity|]. split; [lia|]. split; [exact F2|]. split; [|auto].
    apply Forall2_app; [eapply aitem_frame; eauto|]. constructor; [|constructor]. exists b. cbn [fst snd]. fold c. split; [exact B0|]. split; [rewrite Hlen; reflexivity|].
    rewrite F6 by (rewrite Own; left; reflexivity). unfold hn. rewrite !put_other by congruence. exact Cb.
Qed.

(** *** Strings *)
Lemma strlen_exact : forall d, match strlen d with Ok n => In 0 d /\ n = blen (c_string d) | UB _ => ~ In 0 d end.
Proof.
  induction d as [|c r IH]; cbn [strlen c_string]; [intros []|]. destruct (c =? 0) eqn:E.
  - apply N.eqb_eq in E. split; [left; exact E|reflexivity].
  - apply N.eqb_neq in E. destruct (strlen r) as [n|k]; cbn [obind].
    + destruct IH as [H1 H2]. split; [right; exact H1|]. rewrite blen_cons. lia.
    + intros [Q|Q]; [congruence|contradiction].
Qed.

Lemma strncpy_exact : forall n src dest, (n <= List.length (c_string src))%nat ->
  match strncpy n dest src with Ok d => d = firstn n (c_string src) ++ skipn n dest /\ (n <= List.length dest)%nat | UB _ => (List.length dest < n)%nat end.
Proof.
  induction n as [|n IH]; intros src dest Hn; cbn [strncpy]; [split; [reflexivity|lia]|].
  destruct src as [|c r]; cbn [c_string] in *; [cbn in Hn; lia|]. destruct dest as [|x d]; [cbn; lia|].
  destruct (c =? 0) eqn:E; [cbn in Hn; lia|]. cbn [List.length] in Hn. specialize (IH r d ltac:(lia)).
  destruct (strncpy n d r) as [y|k]; cbn [obind].
  - destruct IH as [-> Hl]. split; [reflexivity|cbn; lia].
  - cbn; lia.
Qed.

Lemma c_string_len : forall d, blen (c_string d) <= blen d.
Proof. induction d as [|c r IH]; cbn [c_string]; [lia|]. destruct (c =? 0); rewrite ?blen_cons; [unfold blen; cbn; lia|lia]. Qed.
Lemma c_string_prefix : forall d, firstn (N.to_nat (blen (c_string d))) d = c_string d.
Proof.
  induction d as [|c r IH]; cbn [c_string]; [reflexivity|]. destruct (c =? 0); [reflexivity|]. unfold blen in *. cbn [List.length].
  rewrite Nat2N.id in *. cbn [firstn]. f_equal. exact IH.
Qed.
Lemma c_string_again : forall d, c_string (c_string d ++ [0]) = c_string d /\ In 0 (c_string d ++ [0]).
Proof.
  intros d. split; [|apply in_or_app; right; left; reflexivity].
  induction d as [|c r IH]; cbn [c_string app]; [reflexivity|]. destruct (c =? 0) eqn:E; [reflexivity|]. cbn [app c_string]. rewrite E. f_equal. exact IH.
Qed.

Definition stringy (d : bytes) : Prop := In 0 d /\ blen (c_string d) < SIZE_MAX.

Lemma strdup_exact : forall d, match sys_strdup true (Some d) with Ok r => r = Some (c_string d ++ [0]) /\ stringy d | UB _ => ~ stringy d end.
Proof.
  intros d. unfold sys_strdup. pose proof (strlen_exact d) as L. destruct (strlen d) as [n|k]; cbn [obind]; [|intros [Q _]; contradiction].
  destruct L as [L1 ->]. unfold sys_strndup. cbn [negb]. set (n := blen (c_string d)).
  pose proof (strncpy_exact (N.to_nat n) d (repeat 0 (N.to_nat (szadd n 1)))) as S.
  assert (Hlen : (N.to_nat n <= List.length (c_string d))%nat) by (unfold n, blen; lia). specialize (S Hlen).
  rewrite repeat_length in S.
  assert (Hsz : (N.to_nat n <= N.to_nat (szadd n 1))%nat -> 0 < n -> n < SIZE_MAX).
  { unfold szadd, size_mod, SIZE_MAX. intros Q1 Q2. destruct (N.lt_ge_cases (n + 1) 18446744073709551616) as [Q|Q]; [lia|].
    assert ((n + 1) mod 18446744073709551616 < 18446744073709551616) by (apply N.mod_lt; discriminate).
    destruct (N.eq_dec (n + 1) 18446744073709551616) as [Q3|Q3]; [rewrite Q3, N.mod_same in Q1 by discriminate; lia|].
    lia. }
  assert (Hsz2 : n < SIZE_MAX -> szadd n 1 = n + 1).
  { unfold szadd, size_mod, SIZE_MAX. intros Q. apply N.mod_small. lia. }
  destruct (strncpy (N.to_nat n) (repeat 0 (N.to_nat (szadd n 1))) d) as [y|k]; cbn [obind].
  - destruct S as [-> S]. assert (Hn : n < SIZE_MAX).
    { destruct (N.eq_dec n 0) as [->|Q]; [unfold SIZE_MAX; lia|]. apply Hsz; [exact S|lia]. }
    split; [|split; [exact L1|exact Hn]]. rewrite (Hsz2 Hn). do 2 f_equal.
    + apply firstn_all2. unfold n, blen. lia.
    + replace (N.to_nat (n + 1)) with (N.to_nat n + 1)%nat by lia. rewrite repeat_app.
      rewrite skipn_app, skipn_all2 by (rewrite repeat_length; lia). rewrite repeat_length, Nat.sub_diag. reflexivity.
  - intros [_ Q]. rewrite (Hsz2 Q) in S. lia.
Qed.

Lemma heap_string_exact : forall h a d, a <> 0 -> hp_cell h a = Live (Buf d) -> In 0 d -> heap_string h a = Ok (c_string d).
Proof.
  intros h a d A0 Hc Hin. unfold heap_string, load_buf. rewrite (proj2 (N.eqb_neq _ _) A0), Hc. cbn [obind].
  pose proof (strlen_exact d) as L. destruct (strlen d) as [n|k]; [|contradiction]. destruct L as [_ ->]. cbn [obind]. unfold take_mem.
  pose proof (c_string_len d). destruct (blen (c_string d) <=? blen d) eqn:E; [|lia]. rewrite c_string_prefix. reflexivity.
Qed.

(** What strdup does on the heap. *)
Lemma heap_strdup_ok : forall h s, heap_wf h -> s <> 0 ->
  match heap_strdup h s with
  | Ok (c, h') => heap_wf h' /\ hp_next h' = hp_next h + 1 /\ hp_oom h' = hp_oom h /\
     ((c = 0 /\ hp_oom h (hp_next h) = true /\ forall x, hp_cell h' x = hp_cell h x) \/
      (exists d, hp_cell h s = Live (Buf d) /\ stringy d /\ c = hp_next h /\ c <> 0 /\ hp_oom h (hp_next h) = false /\ hp_cell h' c = Live (Buf (c_string d ++ [0])) /\ hp_cell h c = Fresh /\
         forall x, x <> c -> hp_cell h' x = hp_cell h x))
  | UB k => forall d, hp_cell h s = Live (Buf d) -> ~ stringy d
  end.
Proof.
  intros h s W S0. unfold heap_strdup, load_buf. rewrite (proj2 (N.eqb_neq _ _) S0).
  destruct (hp_cell h s) as [|[d|fs]|] eqn:Es; cbn [obind]; try (intros d Hd; discriminate).
  destruct (hp_oom h (hp_next h)) eqn:Oom; cbn [negb].
  - unfold sys_strdup. pose proof (strlen_exact d) as L. destruct (strlen d) as [n|k]; cbn [obind sys_strndup negb].
    + destruct (alloc_cases h (Buf []) W) as [a [h' [Ea [W' [Hn [Ho C]]]]]]. rewrite Ea. cbn [snd]. split; [exact W'|]. split; [exact Hn|]. split; [exact Ho|]. left.
      destruct C as [[_ [_ C]]|[_ [_ [Q _]]]]; [|congruence]. auto.
    + intros d' Hd' [Q _]. injection Hd' as <-. contradiction.
  - pose proof (strdup_exact d) as X. destruct (sys_strdup true (Some d)) as [r|k]; cbn [obind].
    + destruct X as [-> X]. destruct (alloc_cases h (Buf (c_string d ++ [0])) W) as [a [h' [Ea [W' [Hn [Ho C]]]]]]. rewrite Ea. split; [exact W'|]. split; [exact Hn|]. split; [exact Ho|]. right.
      destruct C as [[_ [Q _]]|[C1 [C2 [_ [C3 [C4 C5]]]]]]; [congruence|]. exists d. repeat (split; [assumption || reflexivity|]). exact C5.
    + intros d' Hd'. injection Hd' as <-. exact X.
Qed.

(** *** Key/value lists *)
Definition kpre : list val := [P 0; P 0].
Definition kgood := good 2 [0%nat; 1%nat] kpre.
Definition kitem (h : heap) (n : N * list val) (it : bytes * bytes) : Prop :=
  exists k v kd vd, k <> 0 /\ v <> 0 /\ snd n = [P k; P v] /\ hp_cell h k = Live (Buf kd) /\ hp_cell h v = Live (Buf vd) /\
    In 0 kd /\ In 0 vd /\ it = (c_string kd, c_string vd).

Lemma own_kv : forall k v, k <> 0 -> v <> 0 -> own [0%nat; 1%nat] [P k; P v] = [k; v].
Proof. intros k v K V. unfold own, ptr_at. cbn [map nth_error filter]. rewrite (proj2 (N.eqb_neq _ _) K), (proj2 (N.eqb_neq _ _) V). reflexivity. Qed.

Lemma kitem_frame : forall h h' ns items, Forall2 (kitem h) ns items -> (forall a, In a (bufs [0%nat; 1%nat] ns) -> hp_cell h' a = hp_cell h a) -> Forall2 (kitem h') ns items.
Proof.
  intros h h' ns items F. induction F as [|n it ns items H1 H2 IH]; intros Hc; [constructor|]. constructor.
  - destruct H1 as (k & v & kd & vd & K0 & V0 & Hs & Hk & Hv & R). exists k, v, kd, vd.
    assert (Hb : forall a, a = k \/ a = v -> hp_cell h' a = hp_cell h a).
    { intros a Ha. apply Hc. unfold bufs. cbn [flat_map]. apply in_or_app. left. rewrite Hs, own_kv by assumption. cbn [In]. intuition. }
    rewrite !Hb by auto. auto 10.
  - apply IH. intros a Ha. apply Hc. unfold bufs. cbn [flat_map]. apply in_or_app. right. exact Ha.
Qed.

Definition string_buf (h : heap) (a : N) : Prop := exists d, hp_cell h a = Live (Buf d) /\ stringy d.

Lemma push_keyvalue_ok : forall base h H ns items key value, value < hp_next h -> kgood base h H ns -> Forall2 (kitem h) ns items ->
  match push_keyvalue_list h H key value with
  | UB k =>
    key <> 0 /\ value <> 0 /\ hp_oom h (hp_next h) = false /\
    (((hp_oom h (hp_next h + 1) = true \/ hp_oom h (hp_next h + 2) = true) /\ (string_buf h key -> string_buf h value -> k = NullDeref)) \/
     ~ (string_buf h key /\ string_buf h value))
  | Ok (rc, h') =>
    kept base h h' /\ hp_oom h' = hp_oom h /\ hp_next h <= hp_next h' /\
    ((rc = (-1)%Z /\ (key = 0 \/ value = 0 \/ hp_oom h (hp_next h) = true) /\ (forall x, hp_cell h' x = hp_cell h x) /\ kgood base h' H ns) \/
     (rc = 0%Z /\ exists kd vd n, hp_cell h key = Live (Buf kd) /\ stringy kd /\ hp_cell h value = Live (Buf vd) /\ stringy vd /\
        kgood base h' H (ns ++ [n]) /\ Forall2 (kitem h') (ns ++ [n]) (items ++ [(c_string kd, c_string vd)]) /\
        hp_oom h (hp_next h) = false /\ hp_oom h (hp_next h + 1) = false /\ hp_oom h (hp_next h + 2) = false))
  end.
Proof.
  intros base h H ns items key value Vlt G F. unfold push_keyvalue_list.
  pose proof G as [W [Wb [[[_ [H0 _]] _] _]]]. rewrite (proj2 (N.eqb_neq _ _) H0).
  destruct (key =? 0) eqn:A0.
  { apply N.eqb_eq in A0. split; [intros x _; reflexivity|]. split; [reflexivity|]. split; [lia|]. left. split; [reflexivity|]. split; [left; exact A0|]. split; [reflexivity|exact G]. }
  apply N.eqb_neq in A0.
  destruct (value =? 0) eqn:B0.
  { apply N.eqb_eq in B0. split; [intros x _; reflexivity|]. split; [reflexivity|]. split; [lia|]. left. split; [reflexivity|]. split; [right; left; exact B0|]. split; [reflexivity|exact G]. }
  apply N.eqb_neq in B0.
  destruct (alloc_cases h kv_node W) as [el [h1 [Ea [W1 [Hn1 [Ho1 C1]]]]]]. rewrite Ea. clear Ea.
  destruct C1 as [[-> [Oom Cx]]|[Hel [El0 [Oom [Cel [Cfr Cx]]]]]].
  { cbn [N.eqb]. split; [intros x _; apply Cx|]. split; [exact Ho1|]. split; [lia|]. left. split; [reflexivity|]. split; [right; right; exact Oom|]. split; [exact Cx|].
    eapply good_frame; [exact G|exact W1|lia|]. intros a _. apply Cx. }
  rewrite (proj2 (N.eqb_neq _ _) El0).
  assert (Old : forall x b, hp_cell h x = Live b -> hp_cell h1 x = Live b) by (intros x b Hb; rewrite Cx by congruence; exact Hb).
  pose proof (heap_strdup_ok h1 key W1 A0) as K.
  destruct (heap_strdup h1 key) as [[k h2]|u]; cbn [obind].
  2:{ split; [exact A0|]. split; [exact B0|]. split; [exact Oom|]. right. intros [[d [Hd Hs]] _]. exact (K d (Old _ _ Hd) Hs). }
  destruct K as [W2 [Hn2 [Ho2 K]]]. rewrite Ho1, Hn1 in K.
  destruct K as [[-> [Oom2 Cy]]|(kd & Ckey & Skd & Hk & K0 & Oom2 & Ck & Ckf & Cy)].
  { erewrite set_field_at; [|exact El0|rewrite Cy; exact Cel|reflexivity]. cbn [obind set_nthv N.eqb].
    erewrite (zero_node_crash 2 [0%nat; 1%nat] _ el kpre El0 eq_refl).
    - cbn [obind]. split; [exact A0|]. split; [exact B0|]. split; [exact Oom|]. left. auto.
    - apply put_same.
    - cbn [free_fields]. erewrite get_ptr_at; [|exact El0|apply put_same|reflexivity]. cbn [obind N.eqb].
      erewrite get_ptr_at; [|exact El0|apply put_same|reflexivity]. cbn [obind N.eqb]. reflexivity.
    - reflexivity. }
  assert (Hke : el <> k) by lia.
  erewrite set_field_at; [|exact El0|rewrite Cy by exact Hke; exact Cel|reflexivity]. cbn [obind set_nthv]. rewrite (proj2 (N.eqb_neq _ _) K0).
  match goal with |- context [heap_strdup ?x value] => set (h3 := x) end.
  assert (W3 : heap_wf h3).
  { destruct W2 as [V1 [V2 V3]]. split; [exact V1|]. split; [unfold h3; rewrite put_other by congruence; exact V2|]. intros a Ha. unfold h3 in *. cbn [put hp_next] in Ha. rewrite put_other by lia. apply V3. exact Ha. }
  assert (Old3 : forall x b, hp_cell h x = Live b -> hp_cell h3 x = Live b).
  { intros x b Hb. assert (x <> el) by congruence. assert (x <> k). { intros ->. rewrite (Old _ _ Hb) in Ckf. discriminate. } unfold h3. rewrite put_other, Cy by assumption. apply Old. exact Hb. }
  assert (Hkey : hp_cell h key = Live (Buf kd)).
  { rewrite <- Cx; [exact Ckey|]. intros ->. rewrite Cel in Ckey. discriminate. }
  pose proof (heap_strdup_ok h3 value W3 B0) as V.
  destruct (heap_strdup h3 value) as [[v h4]|u]; cbn [obind].
  2:{ split; [exact A0|]. split; [exact B0|]. split; [exact Oom|]. right. intros [_ [d [Hd Hs]]]. exact (V d (Old3 _ _ Hd) Hs). }
  destruct V as [W4 [Hn4 [Ho4 V]]].
  assert (Hn3 : hp_next h3 = hp_next h + 2) by (unfold h3; cbn [put hp_next]; lia).
  assert (Ho3 : hp_oom h3 = hp_oom h) by (unfold h3; cbn [put hp_oom]; congruence).
  rewrite Ho3, Hn3 in V.
  assert (Cel3 : hp_cell h3 el = Live (Struct [P k; P 0; P 0; P 0; P 0])) by (unfold h3; apply put_same).
  destruct V as [[-> [Oom3 Cz]]|(vd & Cval & Svd & Hv & V0 & Oom3 & Cv & Cvf & Cz)].
  { erewrite set_field_at; [|exact El0|rewrite Cz; exact Cel3|reflexivity]. cbn [obind set_nthv N.eqb].
    erewrite (zero_node_crash 2 [0%nat; 1%nat] _ el [P k; P 0] El0 eq_refl).
    - cbn [obind]. split; [exact A0|]. split; [exact B0|]. split; [exact Oom|]. left. auto.
    - apply put_same.
    - cbn [free_fields]. erewrite get_ptr_at; [|exact El0|apply put_same|reflexivity]. cbn [obind]. rewrite (proj2 (N.eqb_neq _ _) K0).
      unfold sys_free. rewrite (proj2 (N.eqb_neq _ _) K0). rewrite put_other by congruence. rewrite Cz. unfold h3 at 1. rewrite put_other by congruence. rewrite Ck. cbn [obind].
      erewrite get_ptr_at; [|exact El0|rewrite put_other by exact Hke; apply put_same|reflexivity]. cbn [obind N.eqb]. reflexivity.
    - rewrite put_other by exact Hke. reflexivity. }
  assert (Hve : el <> v) by lia. assert (Hvk : k <> v) by lia.
  erewrite set_field_at; [|exact El0|rewrite Cz by exact Hve; exact Cel3|reflexivity]. cbn [obind set_nthv]. rewrite (proj2 (N.eqb_neq _ _) V0).
  match goal with |- context [dl_list_add_tail _ ?x _ _ _] => set (hn := x) end.
  assert (Cn : forall x, x <> el -> x <> k -> x <> v -> hp_cell hn x = hp_cell h x).
  { intros x X1 X2 X3. unfold hn. rewrite put_other by exact X1. rewrite Cz by exact X3. unfold h3. rewrite put_other by exact X1. rewrite Cy by exact X2. apply Cx. exact X1. }
  assert (Ckn : hp_cell hn k = Live (Buf (c_string kd ++ [0]))).
  { unfold hn. rewrite put_other by congruence. rewrite Cz by exact Hvk. unfold h3. rewrite put_other by congruence. exact Ck. }
  assert (Cvn : hp_cell hn v = Live (Buf (c_string vd ++ [0]))).
  { unfold hn. rewrite put_other by congruence. exact Cv. }
  assert (Hval : hp_cell h value = Live (Buf vd)).
  { assert (value <> el) by lia. assert (value <> k) by lia. unfold h3 in Cval. rewrite put_other, Cy, Cx in Cval by assumption. exact Cval. }
  assert (Fk : hp_cell h k = Fresh) by (rewrite <- Cx by lia; exact Ckf).
  assert (Fv : hp_cell h v = Fresh).
  { destruct W as [_ [_ W']]. apply W'. lia. }
  assert (Own := own_kv k v K0 V0).
  destruct (good_add 2 [0%nat; 1%nat] kpre base h hn H ns el [P k; P v] 0 0 0 G) as [h' [F1 [F2 [F3 [F4 [F5 [F6 F7]]]]]]].
  - destruct W4 as [X1 [X2 X3]]. split; [exact X1|]. split; [unfold hn; rewrite put_other by congruence; exact X2|].
    intros a Ha. unfold hn in *. cbn [put hp_next] in Ha. rewrite put_other by lia. apply X3. exact Ha.
  - unfold hn. cbn [put hp_next]. lia.
  - exact El0.
  - reflexivity.
  - intros i [<-|[<-|[]]]; eexists; reflexivity.
  - unfold hn. apply put_same.
  - rewrite Own. constructor; [intros [E|[E|[]]]; congruence|]. constructor; [intros [E|[]]; congruence|]. constructor; [intros []|constructor].
  - rewrite Own. intros a [<-|[<-|[<-|[]]]]; (split; [lia|assumption]).
  - rewrite Own. intros a [<-|[<-|[]]]; eexists; eassumption.
  - rewrite Own. intros a Ha. cbn [In] in Ha. apply Cn; intros ->; tauto.
  - unfold kv_off. rewrite F1. cbn [obind]. split; [exact F5|]. split; [rewrite F4; unfold hn; cbn [put hp_oom]; congruence|].
    split; [rewrite F3; unfold hn; cbn [put hp_next]; lia|]. right. split; [reflexivity|]. exists kd, vd, (el, [P k; P v]).
    split; [exact Hkey|]. split; [exact Skd|]. split; [exact Hval|]. split; [exact Svd|]. split; [exact F2|]. split; [|auto].
    apply Forall2_app; [eapply kitem_frame; eauto|]. constructor; [|constructor].
    destruct (c_string_again kd) as [Q1 Q2]. destruct (c_string_again vd) as [Q3 Q4].
    exists k, v, (c_string kd ++ [0]), (c_string vd ++ [0]). rewrite !F6 by (rewrite Own; cbn [In]; auto). rewrite Q1, Q3. auto 10.
Qed.

(** *** Histories *)
Section Runs.
Context {A B : Type}.
Variable inv : heap -> list B -> Prop.
Variable push : heap -> A -> outcome (Z * heap).
Variable arg_ok : A -> Prop.
Variable val : heap -> A -> B.
Variable base : N.
Hypothesis val_kept : forall h0 h x, kept base h0 h -> arg_ok x -> val h x = val h0 x.
Hypothesis step : forall h items x rc h', inv h items -> arg_ok x -> push h x = Ok (rc, h') ->
  kept base h h' /\ hp_oom h' = hp_oom h /\ ((rc = (-1)%Z /\ inv h' items) \/ (rc = 0%Z /\ inv h' (items ++ [val h x]))).

Lemma kept_trans : forall n a b c, kept n a b -> kept n b c -> kept n a c.
Proof. intros n a b c H1 H2 x Hx. rewrite H2, H1 by exact Hx. reflexivity. Qed.

Lemma run_inv : forall l h0 h items rcs h', kept base h0 h -> inv h items -> Forall arg_ok l -> calls push h l = Ok (rcs, h') ->
  kept base h0 h' /\ inv h' (items ++ accepted (val h0) l rcs) /\ List.length rcs = List.length l /\ Forall (fun r => r = 0%Z \/ r = (-1)%Z) rcs /\ hp_oom h' = hp_oom h.
Proof.
  induction l as [|x l IH]; intros h0 h items rcs h' K HI Ha E; cbn [calls] in E.
  - injection E as <- <-. cbn [accepted]. rewrite app_nil_r. repeat split; auto.
  - destruct (push h x) as [[rc h1]|k] eqn:Ep; [|discriminate]. cbn [obind fst snd] in E.
    destruct (calls push h1 l) as [[rcs' h2]|k] eqn:Ec; [|discriminate]. cbn [obind fst snd] in E. injection E as <- <-.
    inversion Ha as [|? ? A1 A2]; subst. destruct (step h items x rc h1 HI A1 Ep) as [K1 [O1 S]].
    pose proof (kept_trans _ _ _ _ K K1) as K2. cbn [accepted].
    destruct S as [[-> I1]|[-> I1]].
    + cbn [Z.eqb]. destruct (IH h0 h1 items rcs' h2 K2 I1 A2 Ec) as [Q1 [Q2 [Q3 [Q4 Q5]]]]. repeat split; auto; [cbn; lia|congruence].
    + cbn [Z.eqb]. destruct (IH h0 h1 _ rcs' h2 K2 I1 A2 Ec) as [Q1 [Q2 [Q3 [Q4 Q5]]]].
      rewrite (val_kept h0 h x K A1), <- app_assoc in Q2. cbn [app] in Q2. repeat split; auto; [cbn; lia|congruence].
Qed.
End Runs.

Definition ainv base H (h : heap) (items : list (bytes * Z)) : Prop := exists ns, agood base h H ns /\ Forall2 (aitem h) ns items.
Definition kinv base H (h : heap) (items : list (bytes * bytes)) : Prop := exists ns, kgood base h H ns /\ Forall2 (kitem h) ns items.

Lemma content_kept : forall n h0 h a, kept n h0 h -> a < n -> content h a = content h0 a.
Proof. intros n h0 h a K Ha. unfold content. rewrite K by exact Ha. reflexivity. Qed.

Lemma ainv_frame : forall base H h h' items, ainv base H h items -> heap_wf h' -> hp_next h <= hp_next h' -> (forall a, base <= a -> hp_cell h' a = hp_cell h a) -> ainv base H h' items.
Proof.
  intros base H h h' items [ns [G F]] W Hn Hc. exists ns. split; [eapply good_frame; eauto|]. eapply aitem_frame; [exact F|].
  intros a Ha. apply Hc. destruct G as [_ [_ [_ [G4 _]]]]. apply G4. right. apply in_or_app. right. exact Ha.
Qed.
Lemma kinv_frame : forall base H h h' items, kinv base H h items -> heap_wf h' -> hp_next h <= hp_next h' -> (forall a, base <= a -> hp_cell h' a = hp_cell h a) -> kinv base H h' items.
Proof.
  intros base H h h' items [ns [G F]] W Hn Hc. exists ns. split; [eapply good_frame; eauto|]. eapply kitem_frame; [exact F|].
  intros a Ha. apply Hc. destruct G as [_ [_ [_ [G4 _]]]]. apply G4. right. apply in_or_app. right. exact Ha.
Qed.

Lemma built_array_inv : forall h0 l rcs H h, built_array h0 l rcs H h ->
  ainv (hp_next h0) H h (accepted (array_arg h0) l rcs) /\ kept (hp_next h0) h0 h /\ List.length rcs = List.length l /\ Forall (fun r => r = 0%Z \/ r = (-1)%Z) rcs /\ hp_oom h = hp_oom h0.
Proof.
  intros h0 l rcs H h [W [Ha [h1 [E [H0 Ec]]]]].
  destruct (init_good 3 [0%nat] apre h0 H h1 W eq_refl) as [G [EH [K Ho]]]; auto.
  { intros i [<-|[]]. eexists. reflexivity. }
  assert (I1 : ainv (hp_next h0) H h1 []) by (exists []; split; [exact G|constructor]).
  destruct (run_inv (ainv (hp_next h0) H) (fun h x => let '(arr, n, fl) := x in push_array_list h H arr n fl)
    (fun x => let '(arr, _, _) := x in arr < hp_next h0) array_arg (hp_next h0)) with (l := l) (h0 := h0) (h := h1) (items := @nil (bytes * Z)) (rcs := rcs) (h' := h) as [Q1 [Q2 [Q3 [Q4 Q5]]]]; auto.
  - intros ha hb [[arr n] fl] Kab Hx. unfold array_arg. rewrite (content_kept _ _ _ _ Kab Hx). reflexivity.
  - intros ha items [[arr n] fl] rc hb [ns [Gn Fn]] Hx Ep. pose proof (push_array_ok (hp_next h0) ha H ns items arr n fl Gn Fn) as Q. rewrite Ep in Q.
    destruct Q as [P1 [P2 [P3 P4]]]. split; [exact P1|]. split; [exact P2|]. destruct P4 as [[-> [_ [Cx Gx]]]|[-> (d & nd & D1 & D2 & D3 & D4 & _)]].
    + left. split; [reflexivity|]. exists ns. split; [exact Gx|]. eapply aitem_frame; [exact Fn|]. intros a _. apply Cx.
    + right. split; [reflexivity|]. exists (ns ++ [nd]). split; [exact D3|]. unfold array_arg, content. rewrite D1. exact D4.
  - cbn [app] in Q2. repeat split; auto. congruence.
Qed.

Lemma built_keyvalue_inv : forall h0 l rcs H h, built_keyvalue h0 l rcs H h ->
  kinv (hp_next h0) H h (accepted (keyvalue_arg h0) l rcs) /\ kept (hp_next h0) h0 h /\ List.length rcs = List.length l /\ Forall (fun r => r = 0%Z \/ r = (-1)%Z) rcs /\ hp_oom h = hp_oom h0.
Proof.
  intros h0 l rcs H h [W [Ha [h1 [E [H0 Ec]]]]].
  destruct (init_good 2 [0%nat; 1%nat] kpre h0 H h1 W eq_refl) as [G [EH [K Ho]]]; auto.
  { intros i [<-|[<-|[]]]; eexists; reflexivity. }
  assert (I1 : kinv (hp_next h0) H h1 []) by (exists []; split; [exact G|constructor]).
  destruct (run_inv (kinv (hp_next h0) H) (fun h x => push_keyvalue_list h H (fst x) (snd x))
    (fun x => fst x < hp_next h0 /\ snd x < hp_next h0) keyvalue_arg (hp_next h0)) with (l := l) (h0 := h0) (h := h1) (items := @nil (bytes * bytes)) (rcs := rcs) (h' := h) as [Q1 [Q2 [Q3 [Q4 Q5]]]]; auto.
  - intros ha hb [k v] Kab [Hx Hy]. unfold keyvalue_arg. cbn [fst snd] in *. rewrite (content_kept _ _ _ _ Kab Hx), (content_kept _ _ _ _ Kab Hy). reflexivity.
  - intros ha items [k v] rc hb [ns [Gn Fn]] [Hx Hy] Ep. cbn [fst snd] in *.
    assert (Hv : v < hp_next ha) by (destruct Gn as [_ [Gb _]]; lia).
    pose proof (push_keyvalue_ok (hp_next h0) ha H ns items k v Hv Gn Fn) as Q. rewrite Ep in Q.
    destruct Q as [P1 [P2 [P3 P4]]]. split; [exact P1|]. split; [exact P2|]. destruct P4 as [[-> [_ [Cx Gx]]]|[-> (kd & vd & nd & D1 & _ & D2 & _ & D3 & D4 & _)]].
    + left. split; [reflexivity|]. exists ns. split; [exact Gx|]. eapply kitem_frame; [exact Fn|]. intros a _. apply Cx.
    + right. split; [reflexivity|]. exists (ns ++ [nd]). split; [exact D3|]. unfold keyvalue_arg, content. cbn [fst snd]. rewrite D1, D2. exact D4.
  - cbn [app] in Q2. repeat split; auto. congruence.
Qed.

(** *** Reading *)
Lemma seg_cell : forall off ns h p q a pre, seg off h p ns q -> In (a, pre) ns -> a <> 0 /\ exists n r, hp_cell h a = node pre n r a.
Proof.
  induction ns as [|[b bpre] r IH]; intros h p q a pre S Hin; [destruct Hin|]. destruct Hin as [E|Hin].
  - injection E as -> ->. cbn [seg] in S. destruct S as [_ [S0 [Sc _]]]. split; [exact S0|]. eexists _, _. exact Sc.
  - cbn [seg] in S. destruct S as [_ [_ [_ S]]]. eapply IH; eauto.
Qed.

Lemma each_ok : forall A (f : N -> outcome A) ns items, Forall2 (fun (n : N * list val) it => f (fst n) = Ok it) ns items -> each f (map fst ns) = Ok items.
Proof. intros A f ns items F. induction F as [|n it ns items H1 H2 IH]; cbn [map each]; [reflexivity|]. rewrite H1. cbn [obind]. rewrite IH. reflexivity. Qed.

Lemma Forall2_in_l : forall A B (R S : A -> B -> Prop) l m, Forall2 R l m -> (forall x y, In x l -> R x y -> S x y) -> Forall2 S l m.
Proof. intros A B R S l m F. induction F as [|x y l m H1 H2 IH]; intros Hi; constructor; [apply Hi; [left; reflexivity|exact H1]|]. apply IH. intros a b Ha. apply Hi. right. exact Ha. Qed.

Lemma Forall2_len : forall A B (R : A -> B -> Prop) l m, Forall2 R l m -> List.length l = List.length m.
Proof. intros A B R l m F. induction F; cbn; lia. Qed.

Lemma ainv_items : forall base H h items, ainv base H h items -> array_items h H = Ok items /\ dl_list_len arr_off h H = Ok (N.of_nat (List.length items)).
Proof.
  intros base H h items [ns [[W [_ [L _]]] F]]. split.
  - unfold array_items. rewrite (for_each_ok arr_off arr_owned h H apre ns W L). cbn [obind]. apply each_ok. eapply Forall2_in_l; [exact F|].
    intros [a pre] [c fl] Hin [b [B0 [Hs Hb]]]. cbn [fst snd] in *. subst pre. destruct L as [[_ [_ [_ [S _]]]] _].
    destruct (seg_cell 3 ns h H H a _ S Hin) as [A0 [n [r Hc]]]. unfold node in Hc. cbn [app] in Hc.
    unfold arr_item. erewrite get_ptr_at; [|exact A0|exact Hc|reflexivity]. cbn [obind]. erewrite get_int_at; [|exact A0|exact Hc|reflexivity]. cbn [obind].
    erewrite get_int_at; [|exact A0|exact Hc|reflexivity]. cbn [obind]. unfold load_buf. rewrite (proj2 (N.eqb_neq _ _) B0), Hb. cbn [obind].
    unfold take_mem. rewrite N2Z.id. rewrite N.leb_refl. cbn [obind]. unfold blen. rewrite Nat2N.id, firstn_all. reflexivity.
  - rewrite (len_ok arr_off arr_owned h H apre ns W L). do 2 f_equal. apply (Forall2_len _ _ _ _ _ F).
Qed.

Lemma kinv_items : forall base H h items, kinv base H h items -> keyvalue_items h H = Ok items /\ dl_list_len kv_off h H = Ok (N.of_nat (List.length items)).
Proof.
  intros base H h items [ns [[W [_ [L _]]] F]]. split.
  - unfold keyvalue_items. rewrite (for_each_ok kv_off kv_owned h H kpre ns W L). cbn [obind]. apply each_ok. eapply Forall2_in_l; [exact F|].
    intros [a pre] it Hin (k & v & kd & vd & K0 & V0 & Hs & Hk & Hv & Ik & Iv & ->). cbn [fst snd] in *. subst pre. destruct L as [[_ [_ [_ [S _]]]] _].
    destruct (seg_cell 2 ns h H H a _ S Hin) as [A0 [n [r Hc]]]. unfold node in Hc. cbn [app] in Hc.
    unfold kv_item. erewrite get_ptr_at; [|exact A0|exact Hc|reflexivity]. cbn [obind]. erewrite get_ptr_at; [|exact A0|exact Hc|reflexivity]. cbn [obind].
    rewrite (heap_string_exact _ _ _ K0 Hk Ik). cbn [obind]. rewrite (heap_string_exact _ _ _ V0 Hv Iv). reflexivity.
  - rewrite (len_ok kv_off kv_owned h H kpre ns W L). do 2 f_equal. apply (Forall2_len _ _ _ _ _ F).
Qed.

(** *** The theorems *)
Lemma accepted_count : forall A B (f : A -> B) l rcs, List.length rcs = List.length l -> List.length (accepted f l rcs) = count_occ Z.eq_dec rcs 0%Z.
Proof.
  induction l as [|x l IH]; intros [|r rcs] E; cbn in E; try discriminate; [reflexivity|]. cbn [accepted count_occ].
  destruct (Z.eq_dec r 0) as [->|Hr]; [cbn; f_equal; apply IH; lia|]. rewrite (proj2 (Z.eqb_neq _ _) Hr). apply IH. lia.
Qed.

Lemma array_thm : forall h0 l rcs H h, built_array h0 l rcs H h ->
  array_items h H = Ok (accepted (array_arg h0) l rcs) /\
  dl_list_len arr_off h H = Ok (N.of_nat (count_occ Z.eq_dec rcs 0%Z)) /\
  kept (hp_next h0) h0 h /\
  (forall h', heap_wf h' -> same_above (hp_next h0) h h' -> array_items h' H = Ok (accepted (array_arg h0) l rcs)).
Proof.
  intros h0 l rcs H h B. destruct (built_array_inv _ _ _ _ _ B) as [I1 [K [L _]]]. destruct (ainv_items _ _ _ _ I1) as [E1 E2].
  split; [exact E1|]. split; [rewrite E2, accepted_count by exact L; reflexivity|]. split; [exact K|].
  intros h' W [S1 S2]. apply (ainv_items (hp_next h0)). eapply ainv_frame; [exact I1|exact W|lia|exact S2].
Qed.
Lemma keyvalue_thm : forall h0 l rcs H h, built_keyvalue h0 l rcs H h ->
  keyvalue_items h H = Ok (accepted (keyvalue_arg h0) l rcs) /\
  dl_list_len kv_off h H = Ok (N.of_nat (count_occ Z.eq_dec rcs 0%Z)) /\
  kept (hp_next h0) h0 h /\
  (forall h', heap_wf h' -> same_above (hp_next h0) h h' -> keyvalue_items h' H = Ok (accepted (keyvalue_arg h0) l rcs)).
Proof.
  intros h0 l rcs H h B. destruct (built_keyvalue_inv _ _ _ _ _ B) as [I1 [K [L _]]]. destruct (kinv_items _ _ _ _ I1) as [E1 E2].
  split; [exact E1|]. split; [rewrite E2, accepted_count by exact L; reflexivity|]. split; [exact K|].
  intros h' W [S1 S2]. apply (kinv_items (hp_next h0)). eapply kinv_frame; [exact I1|exact W|lia|exact S2].
Qed.

Lemma array_free_thm : forall h0 l rcs H h, built_array h0 l rcs H h ->
  exists h', free_array_list h H = Ok h' /\ kept (hp_next h0) h0 h' /\ no_leak (hp_next h0) h'.
Proof.
  intros h0 l rcs H h B. destruct (built_array_inv _ _ _ _ _ B) as [[ns [G _]] [K _]].
  destruct (good_free _ _ _ _ _ _ _ G) as [h' [F1 [F2 [F3 _]]]]. exists h'. split; [exact F1|]. split; [eapply kept_trans; eassumption|exact F3].
Qed.
Lemma keyvalue_free_thm : forall h0 l rcs H h, built_keyvalue h0 l rcs H h ->
  exists h', free_keyvalue_list h H = Ok h' /\ kept (hp_next h0) h0 h' /\ no_leak (hp_next h0) h'.
Proof.
  intros h0 l rcs H h B. destruct (built_keyvalue_inv _ _ _ _ _ B) as [[ns [G _]] [K _]].
  destruct (good_free _ _ _ _ _ _ _ G) as [h' [F1 [F2 [F3 _]]]]. exists h'. split; [exact F1|]. split; [eapply kept_trans; eassumption|exact F3].
Qed.

Lemma array_push_cases : forall h0 l rcs H h arr n fl, built_array h0 l rcs H h -> readable h0 arr n ->
  (hp_oom h (hp_next h) = true ->
     exists h', push_array_list h H arr n fl = Ok ((-1)%Z, h') /\ forall a, hp_cell h' a = hp_cell h a) /\
  (hp_oom h (hp_next h) = false -> hp_oom h (hp_next h + 1) = true ->
     push_array_list h H arr n fl = UB NullDeref) /\
  (hp_oom h (hp_next h) = false -> hp_oom h (hp_next h + 1) = false ->
     exists h', push_array_list h H arr n fl = Ok (0%Z, h')).
Proof.
  intros h0 l rcs H h arr n fl B [d [Hd Hn]]. pose proof B as [[W1 [W2 W3]] _]. destruct (built_array_inv _ _ _ _ _ B) as [[ns [G F]] [K _]].
  assert (Hlt : arr < hp_next h0). { destruct (N.lt_ge_cases arr (hp_next h0)) as [Q|Q]; [exact Q|]. rewrite W3 in Hd by exact Q. discriminate. }
  assert (A0 : arr <> 0) by congruence.
  assert (Hd' : hp_cell h arr = Live (Buf d)) by (rewrite K by exact Hlt; exact Hd).
  pose proof (push_array_ok _ h H ns _ arr n fl G F) as Q.
  destruct (push_array_list h H arr n fl) as [[rc h']|k].
  - destruct Q as [_ [_ [_ [[-> [[Q|Q] [Cx _]]]|[-> Q]]]]]; [congruence| |].
    + repeat split; [intros _; eauto|congruence|congruence].
    + destruct Q as (d' & nd & _ & _ & _ & _ & O1 & O2). repeat split; [congruence|congruence|eauto].
  - destruct Q as [_ [Q1 [[Q2 ->]|[Q2 Q3]]]]; [repeat split; congruence|]. specialize (Q3 d Hd'). lia.
Qed.

Lemma keyvalue_push_cases : forall h0 l rcs H h key value, built_keyvalue h0 l rcs H h -> is_string h0 key -> is_string h0 value ->
  (hp_oom h (hp_next h) = true ->
     exists h', push_keyvalue_list h H key value = Ok ((-1)%Z, h') /\ forall a, hp_cell h' a = hp_cell h a) /\
  (hp_oom h (hp_next h) = false -> hp_oom h (hp_next h + 1) = true \/ hp_oom h (hp_next h + 2) = true ->
     push_keyvalue_list h H key value = UB NullDeref) /\
  (hp_oom h (hp_next h) = false -> hp_oom h (hp_next h + 1) = false -> hp_oom h (hp_next h + 2) = false ->
     exists h', push_keyvalue_list h H key value = Ok (0%Z, h')).
Proof.
  intros h0 l rcs H h key value B [kd [Hk [Ik Lk]]] [vd [Hv [Iv Lv]]]. pose proof B as [[W1 [W2 W3]] _]. destruct (built_keyvalue_inv _ _ _ _ _ B) as [[ns [G F]] [K _]].
  assert (Hlt : forall a d, hp_cell h0 a = Live (Buf d) -> a < hp_next h0 /\ a <> 0).
  { intros a d Hd. split; [|congruence]. destruct (N.lt_ge_cases a (hp_next h0)) as [Q|Q]; [exact Q|]. rewrite W3 in Hd by exact Q. discriminate. }
  destruct (Hlt _ _ Hk) as [Kl K0]. destruct (Hlt _ _ Hv) as [Vl V0].
  assert (Sk : string_buf h key). { exists kd. rewrite K by exact Kl. split; [exact Hk|split; assumption]. }
  assert (Sv : string_buf h value). { exists vd. rewrite K by exact Vl. split; [exact Hv|split; assumption]. }
  assert (Hvl : value < hp_next h) by (destruct G as [_ [Gb _]]; lia).
  pose proof (push_keyvalue_ok _ h H ns _ key value Hvl G F) as Q.
  destruct (push_keyvalue_list h H key value) as [[rc h']|k].
  - destruct Q as [_ [_ [_ [[-> [[Q|[Q|Q]] [Cx _]]]|[-> Q]]]]]; [congruence|congruence| |].
    + split; [intros _; eauto|split; [congruence|congruence]].
    + destruct Q as (d' & vd' & nd & _ & _ & _ & _ & _ & _ & O1 & O2 & O3). split; [congruence|]. split; [intros _ [X|X]; congruence|eauto].
  - destruct Q as [_ [_ [Q1 [[Q2 Q3]|Q2]]]]; [|exfalso; apply Q2; split; assumption]. rewrite (Q3 Sk Sv). split; [congruence|]. split; [reflexivity|]. intros _ X Y. destruct Q2; congruence.
Qed.

(** *** Nothing fails when memory is plentiful *)
Lemma calls_app : forall A (f : heap -> A -> outcome (Z * heap)) l h x, calls f h (l ++ [x]) =
  obind (calls f h l) (fun y => obind (f (snd y) x) (fun z => Ok (fst y ++ [fst z], snd z))).
Proof.
  induction l as [|y l IH]; intros h x; cbn [app calls obind fst snd].
  - destruct (f h x) as [[r h']|k]; reflexivity.
  - destruct (f h y) as [[r h']|k]; [|reflexivity]. cbn [obind fst snd]. rewrite IH. destruct (calls f h' l) as [[rs h2]|k]; [|reflexivity].
    cbn [obind fst snd]. destruct (f h2 x) as [[r2 h3]|k]; reflexivity.
Qed.

Lemma init_plenty : forall off owned hpre h, heap_wf h -> payload off hpre -> fields_ok owned hpre -> own owned hpre = [] -> plenty h ->
  exists H h1, init_list off (Struct (hpre ++ [P 0; P 0; P 0])) h = Ok (H, h1) /\ H <> 0.
Proof.
  intros off owned hpre h W Hp Hf Ho Pl. unfold init_list.
  destruct (alloc_cases h (Struct (hpre ++ [P 0; P 0; P 0])) W) as [a [h' [Ea [W' [Hn [Hoo C]]]]]]. rewrite Ea.
  destruct C as [[_ [Q _]]|[Ha [A0 [_ [Hc _]]]]]; [rewrite (Pl (hp_next h)) in Q; discriminate|].
  rewrite (proj2 (N.eqb_neq _ _) A0). unfold dl_list_init.
  rewrite (set_next off h' a hpre 0 0 0 a A0 Hp Hc). cbn [obind].
  erewrite (set_prev off); [|exact A0|exact Hp|apply put_same]. cbn [obind].
  erewrite (set_el off); [|exact A0|exact Hp|apply put_same]. cbn [obind]. eauto.
Qed.

Lemma array_total : forall h0 l, heap_wf h0 -> plenty h0 ->
  Forall (fun x => let '(arr, n, _) := x in arr = 0 \/ readable h0 arr n) l ->
  exists H h, built_array h0 l (map (fun x => let '(arr, _, _) := x in if arr =? 0 then (-1)%Z else 0%Z) l) H h.
Proof.
  intros h0 l W Pl. destruct (init_plenty 3 [0%nat] apre h0 W eq_refl) as [H [h1 [E1 H0]]]; auto.
  { intros i [<-|[]]. eexists. reflexivity. }
  intros Ha. exists H. revert Ha. induction l as [|[[arr n] fl] l IH] using rev_ind; intros Ha.
  - exists h1. split; [exact W|]. split; [constructor|]. exists h1. split; [exact E1|]. split; [exact H0|reflexivity].
  - apply Forall_app in Ha. destruct Ha as [Ha Hx]. inversion Hx as [|? ? X1 _]; subst. destruct (IH Ha) as [h B].
    assert (Ho : hp_oom h = hp_oom h0) by apply (built_array_inv _ _ _ _ _ B).
    destruct B as [B1 [B2 [h1' [B3 [B4 B5]]]]].
    assert (Hlt : arr < hp_next h0).
    { destruct X1 as [->|[d [Hd _]]]; [apply W|]. destruct (N.lt_ge_cases arr (hp_next h0)) as [Q|Q]; [exact Q|]. destruct W as [_ [_ W3]]. rewrite W3 in Hd by exact Q. discriminate. }
    assert (Hp : exists h', push_array_list h H arr n fl = Ok (if arr =? 0 then (-1)%Z else 0%Z, h')).
    { destruct X1 as [->|R].
      - exists h. unfold push_array_list. rewrite (proj2 (N.eqb_neq _ _) H0). reflexivity.
      - assert (B : built_array h0 l (map (fun x => let '(arr, _, _) := x in if arr =? 0 then (-1)%Z else 0%Z) l) H h) by (split; [exact B1|split; [exact B2|exists h1'; auto]]).
        destruct (array_push_cases _ _ _ _ _ arr n fl B R) as [_ [_ Q]]. rewrite Ho in Q. destruct R as [d [Hd _]].
        assert (A0 : arr <> 0) by (intros ->; destruct W as [_ [W2 _]]; congruence). rewrite (proj2 (N.eqb_neq _ _) A0). apply Q; apply Pl. }
    destruct Hp as [h' Hp]. exists h'. split; [exact W|]. split; [apply Forall_app; split; [exact B2|constructor; [exact Hlt|constructor]]|].
    exists h1'. split; [exact B3|]. split; [exact B4|]. rewrite calls_app. rewrite B5. cbn [obind fst snd]. rewrite Hp. cbn [obind fst snd]. rewrite map_app. reflexivity.
Qed.

Lemma keyvalue_total : forall h0 l, heap_wf h0 -> plenty h0 ->
  Forall (fun x => (fst x = 0 \/ is_string h0 (fst x)) /\ (snd x = 0 \/ is_string h0 (snd x))) l ->
  exists H h, built_keyvalue h0 l (map (fun x => if (fst x =? 0) || (snd x =? 0) then (-1)%Z else 0%Z) l) H h.
Proof.
  intros h0 l W Pl. destruct (init_plenty 2 [0%nat; 1%nat] kpre h0 W eq_refl) as [H [h1 [E1 H0]]]; auto.
  { intros i [<-|[<-|[]]]; eexists; reflexivity. }
  intros Ha. exists H. revert Ha. induction l as [|[k v] l IH] using rev_ind; intros Ha.
  - exists h1. split; [exact W|]. split; [constructor|]. exists h1. split; [exact E1|]. split; [exact H0|reflexivity].
  - apply Forall_app in Ha. destruct Ha as [Ha Hx]. inversion Hx as [|? ? [X1 X2] _]; subst. cbn [fst snd] in *. destruct (IH Ha) as [h B].
    assert (Ho : hp_oom h = hp_oom h0) by apply (built_keyvalue_inv _ _ _ _ _ B).
    assert (Hlt : forall a, a = 0 \/ is_string h0 a -> a < hp_next h0).
    { intros a [->|[d [Hd _]]]; [apply W|]. destruct (N.lt_ge_cases a (hp_next h0)) as [Q|Q]; [exact Q|]. destruct W as [_ [_ W3]]. rewrite W3 in Hd by exact Q. discriminate. }
    assert (Hne : forall a, is_string h0 a -> a <> 0) by (intros a [d [Hd _]] ->; destruct W as [_ [W2 _]]; congruence).
    assert (Hp : exists h', push_keyvalue_list h H k v = Ok (if (k =? 0) || (v =? 0) then (-1)%Z else 0%Z, h')).
    { destruct X1 as [->|R1].
      - exists h. unfold push_keyvalue_list. rewrite (proj2 (N.eqb_neq _ _) H0). reflexivity.
      - destruct X2 as [->|R2].
        + exists h. unfold push_keyvalue_list. rewrite (proj2 (N.eqb_neq _ _) H0). rewrite (proj2 (N.eqb_neq _ _) (Hne _ R1)). reflexivity.
        + rewrite (proj2 (N.eqb_neq _ _) (Hne _ R1)), (proj2 (N.eqb_neq _ _) (Hne _ R2)).
          destruct (keyvalue_push_cases _ _ _ _ _ k v B R1 R2) as [_ [_ Q]]. rewrite Ho in Q. apply Q; apply Pl. }
    destruct B as [B1 [B2 [h1' [B3 [B4 B5]]]]].
    destruct Hp as [h' Hp]. exists h'. split; [exact W|]. split; [apply Forall_app; split; [exact B2|constructor; [split; [apply Hlt; exact X1|apply Hlt; exact X2]|constructor]]|].
    exists h1'. split; [exact B3|]. split; [exact B4|]. rewrite calls_app. rewrite B5. cbn [obind fst snd]. rewrite Hp. cbn [obind fst snd]. rewrite map_app. reflexivity.
Qed.

(** *** A concrete heap: two strings owned by the caller *)
Definition toy_heap (oom : N -> bool) : heap :=
  mk_heap 3 (fun a => if a =? 1 then Live (Buf (s2b "hello" ++ [0])) else if a =? 2 then Live (Buf (s2b "key" ++ [0; 7])) else Fresh) oom.
Lemma toy_wf : forall oom, heap_wf (toy_heap oom).
Proof.
  intros oom. split; [cbn; lia|]. split; [reflexivity|]. intros a Ha. cbn in Ha. cbn. destruct (a =? 1) eqn:E1; [lia|]. destruct (a =? 2) eqn:E2; [lia|]. reflexivity.
Qed.

Lemma array_oom_refuted : exists h0 l rcs H h arr n fl, built_array h0 l rcs H h /\ readable h0 arr n /\ push_array_list h H arr n fl = UB NullDeref.
Proof.
  set (h0 := toy_heap (fun n => n =? 7)).
  destruct (init_array_list h0) as [[H h1]|k] eqn:E; [|discriminate].
  destruct (calls (fun h x => let '(arr, n, fl) := x in push_array_list h H arr n fl) h1 [(1, 5, 3%Z)]) as [[rcs h]|k] eqn:Ec; [|exfalso; vm_compute in E; injection E as <- <-; vm_compute in Ec; discriminate].
  exists h0, [(1, 5, 3%Z)], rcs, H, h, 2, 3, 0%Z. split; [|split].
  - split; [apply toy_wf|]. split; [constructor; [reflexivity|constructor]|]. exists h1. split; [exact E|]. split; [|exact Ec].
    vm_compute in E. injection E as <- <-. discriminate.
  - eexists. split; [reflexivity|]. vm_compute. discriminate.
  - vm_compute in E. injection E as <- <-. vm_compute in Ec. injection Ec as <- <-. vm_compute. reflexivity.
Qed.

Lemma keyvalue_oom_refuted : exists h0 l rcs H h key value, built_keyvalue h0 l rcs H h /\ is_string h0 key /\ is_string h0 value /\ push_keyvalue_list h H key value = UB NullDeref.
Proof.
  set (h0 := toy_heap (fun n => n =? 9)).
  destruct (init_keyvalue_list h0) as [[H h1]|k] eqn:E; [|discriminate].
  destruct (calls (fun h x => push_keyvalue_list h H (fst x) (snd x)) h1 [(2, 1)]) as [[rcs h]|k] eqn:Ec; [|exfalso; vm_compute in E; injection E as <- <-; vm_compute in Ec; discriminate].
  exists h0, [(2, 1)], rcs, H, h, 2, 1. split; [|split; [|split]].
  - split; [apply toy_wf|]. split; [constructor; [split; reflexivity|constructor]|]. exists h1. split; [exact E|]. split; [|exact Ec].
    vm_compute in E. injection E as <- <-. discriminate.
  - eexists. split; [reflexivity|]. split; [vm_compute; tauto|reflexivity].
  - eexists. split; [reflexivity|]. split; [vm_compute; tauto|reflexivity].
  - vm_compute in E. injection E as <- <-. vm_compute in Ec. injection Ec as <- <-. vm_compute. reflexivity.
Qed.
