(** Reasoning about code that owns several blocks and lists at once. *)
From Verif Require Import Base PBase MOs MHeap MArray SHeap SArray PHeap PArray.
Open Scope N_scope.

(** The live blocks from [base] on are exactly those of [S]. *)
Definition only (base : N) (h : heap) (S : N -> Prop) : Prop :=
  heap_wf h /\ base <= hp_next h /\ forall a, base <= a -> (is_live h a <-> S a).

Lemma only_iff : forall base h (S S' : N -> Prop), only base h S -> (forall a, base <= a -> (S a <-> S' a)) -> only base h S'.
Proof. intros base h S S' (W & B & L) E. split; [exact W|]. split; [exact B|]. intros a Ha. rewrite (L a Ha). apply E. exact Ha. Qed.

Lemma only_same : forall base h h' S, only base h S -> heap_wf h' -> base <= hp_next h' -> (forall a, base <= a -> hp_cell h' a = hp_cell h a) -> only base h' S.
Proof. intros base h h' S (W & B & L) W' B' E. split; [exact W'|]. split; [exact B'|]. intros a Ha. unfold is_live. rewrite (E a Ha). apply L. exact Ha. Qed.

Lemma only_init : forall h, heap_wf h -> only (hp_next h) h (fun _ => False).
Proof.
  intros h W. split; [exact W|]. split; [lia|]. intros a Ha. split; [|contradiction]. intros Hl. pose proof (live_below _ _ W Hl). lia.
Qed.
Lemma only_leak : forall base h, only base h (fun _ => False) -> no_leak base h.
Proof. intros base h (_ & _ & L) a Ha Hl. apply (L a Ha) in Hl. exact Hl. Qed.

Lemma wf_write : forall h a c b, heap_wf h -> a <> 0 -> hp_cell h a = Live b -> c <> Fresh \/ True -> heap_wf (put h a c).
Proof.
  intros h a c b W A0 Hc _. assert (Hb : a < hp_next h) by (apply live_below; [exact W|eexists; exact Hc]). destruct W as (W1 & W2 & W3).
  split; [exact W1|]. split; [rewrite put_other by congruence; exact W2|]. intros x Hx. cbn [put hp_next] in Hx. rewrite put_other by lia. apply W3. exact Hx.
Qed.

Lemma live_nz : forall h a, heap_wf h -> is_live h a -> a <> 0.
Proof. intros h a (_ & W & _) [b Hb] ->. congruence. Qed.

Lemma free_live : forall h a, heap_wf h -> is_live h a -> sys_free h a = Ok (put h a Freed) /\ heap_wf (put h a Freed).
Proof.
  intros h a W Hl. pose proof (live_nz _ _ W Hl) as A0. destruct Hl as [b Hb]. split.
  - unfold sys_free. rewrite (proj2 (N.eqb_neq _ _) A0), Hb. reflexivity.
  - eapply wf_write; eauto.
Qed.
Lemma only_freed : forall base h S a, only base h S -> is_live h a -> only base (put h a Freed) (fun x => S x /\ x <> a).
Proof.
  intros base h S a (W & B & L) Hl. split; [apply free_live; assumption|]. split; [exact B|]. intros x Hx. unfold is_live. destruct (N.eq_dec x a) as [->|Hne].
  - rewrite put_same. split; [intros [b Hb]; discriminate|intros [_ Q]; congruence].
  - rewrite put_other by exact Hne. rewrite <- (L x Hx). unfold is_live. tauto.
Qed.
Lemma only_write : forall base h S a b, only base h S -> is_live h a -> only base (put h a (Live b)) S.
Proof.
  intros base h S a b (W & B & L) Hl. pose proof (live_nz _ _ W Hl). destruct Hl as [c Hc]. split; [eapply wf_write; eauto|]. split; [exact B|]. intros x Hx. unfold is_live. destruct (N.eq_dec x a) as [->|Hne].
  - rewrite put_same. rewrite <- (L a Hx). split; intros _; eexists; [exact Hc|reflexivity].
  - rewrite put_other by exact Hne. rewrite <- (L x Hx). unfold is_live. tauto.
Qed.

Lemma only_alloc : forall base h S b, only base h S -> exists a h', alloc h b = (a, h') /\ hp_oom h' = hp_oom h /\ hp_next h' = hp_next h + 1 /\
  ((a = 0 /\ hp_oom h (hp_next h) = true /\ (forall x, hp_cell h' x = hp_cell h x) /\ only base h' S) \/
   (a = hp_next h /\ a <> 0 /\ base <= a /\ hp_oom h (hp_next h) = false /\ hp_cell h' a = Live b /\ hp_cell h a = Fresh /\
    (forall x, x <> a -> hp_cell h' x = hp_cell h x) /\ only base h' (fun x => S x \/ x = a))).
Proof.
  intros base h S b O. pose proof O as (W & B & L). destruct (alloc_cases h b W) as (a & h' & E & W' & Hn & Ho & C). exists a, h'. split; [exact E|]. split; [exact Ho|]. split; [exact Hn|].
  destruct C as [(A & Oo & Cx)|(A & A0 & Oo & Ca & Cf & Cx)].
  - left. split; [exact A|]. split; [exact Oo|]. split; [exact Cx|]. eapply only_same; [exact O|exact W'|lia|auto].
  - right. split; [exact A|]. split; [exact A0|]. split; [lia|]. split; [exact Oo|]. split; [exact Ca|]. split; [exact Cf|]. split; [exact Cx|].
    split; [exact W'|]. split; [lia|]. intros x Hx. unfold is_live. destruct (N.eq_dec x a) as [->|Hne].
    + rewrite Ca. split; [auto|]. intros _. eexists. reflexivity.
    + rewrite (Cx x Hne). rewrite <- (L x Hx). unfold is_live. tauto.
Qed.

(** *** Array lists among other blocks *)
Definition alist (h : heap) (H : N) (items : list (bytes * Z)) (F : list N) : Prop :=
  exists ns, list_ok 3 [0%nat] h H apre ns /\ Forall2 (aitem h) ns items /\ F = print [0%nat] ns H.

Lemma alist_frame : forall h h' H items F, alist h H items F -> (forall a, In a F -> hp_cell h' a = hp_cell h a) -> alist h' H items F.
Proof.
  intros h h' H items F (ns & L & It & ->) E. exists ns. split; [eapply list_frame; [|exact L]; exact E|]. split; [|reflexivity].
  eapply aitem_frame; [exact It|]. intros a Ha. apply E. right. apply in_or_app. right. exact Ha.
Qed.
Lemma alist_live : forall h H items F a, alist h H items F -> In a F -> is_live h a.
Proof. intros h H items F a (ns & L & _ & ->) Ha. eapply list_live; eassumption. Qed.
Lemma alist_head : forall h H items F, alist h H items F -> In H F /\ H <> 0.
Proof. intros h H items F (ns & L & _ & ->). split; [left; reflexivity|]. destruct L as [[_ [Q _]] _]. exact Q. Qed.

Lemma alist_items : forall h H items F, heap_wf h -> alist h H items F -> array_items h H = Ok items /\ dl_list_len arr_off h H = Ok (N.of_nat (List.length items)).
Proof.
  intros h H items F W (ns & L & It & _).
  split.
  - unfold array_items. rewrite (for_each_ok arr_off arr_owned h H apre ns W L). cbn [obind]. apply each_ok. eapply Forall2_in_l; [exact It|].
    intros [a pre] [c fl] Hin [b [B0 [Hs Hb]]]. cbn [fst snd] in *. subst pre. destruct L as [[_ [_ [_ [S _]]]] _].
    destruct (seg_cell 3 ns h H H a _ S Hin) as [A0 [n [r Hc]]]. unfold node in Hc. cbn [app] in Hc.
    unfold arr_item. erewrite get_ptr_at; [|exact A0|exact Hc|reflexivity]. cbn [obind]. erewrite get_int_at; [|exact A0|exact Hc|reflexivity]. cbn [obind].
    erewrite get_int_at; [|exact A0|exact Hc|reflexivity]. cbn [obind]. unfold load_buf. rewrite (proj2 (N.eqb_neq _ _) B0), Hb. cbn [obind].
    unfold take_mem. rewrite N2Z.id. rewrite N.leb_refl. cbn [obind]. f_equal. f_equal. unfold blen. rewrite Nat2N.id. apply firstn_all.
  - rewrite (len_ok arr_off arr_owned h H apre ns W L). rewrite (Forall2_len _ _ _ _ _ It). reflexivity.
Qed.

Lemma init_alist : forall h, heap_wf h -> exists H h1, init_array_list h = Ok (H, h1) /\ heap_wf h1 /\ hp_next h1 = hp_next h + 1 /\ hp_oom h1 = hp_oom h /\
  ((H = 0 /\ hp_oom h (hp_next h) = true /\ forall x, hp_cell h1 x = hp_cell h x) \/
   (H = hp_next h /\ H <> 0 /\ hp_oom h (hp_next h) = false /\ alist h1 H [] [H] /\ forall x, x <> H -> hp_cell h1 x = hp_cell h x)).
Proof.
  intros h W. unfold init_array_list. destruct (hp_oom h (hp_next h)) eqn:Oom.
  - unfold init_list, alloc. rewrite Oom. cbn [N.eqb]. eexists _, _. split; [reflexivity|]. split; [|split; [reflexivity|split; [reflexivity|left; auto]]].
    destruct W as (W1 & W2 & W3). split; [cbn; lia|]. split; [exact W2|]. intros a Ha. cbn in *. apply W3. lia.
  - destruct (alloc_cases h arr_node W) as (a & h' & E & W' & Hn & Ho & C). destruct C as [(_ & Q & _)|(A & A0 & _ & Ca & Cf & Cx)]; [congruence|].
    assert (exists h1, init_list arr_off arr_node h = Ok (a, h1) /\ (forall x, x <> a -> hp_cell h1 x = hp_cell h' x) /\ hp_next h1 = hp_next h') as (h1 & E1 & C1 & N1).
    { unfold init_list. rewrite E. rewrite (proj2 (N.eqb_neq _ _) A0). unfold dl_list_init, arr_off.
      erewrite set_field_at; [|exact A0|exact Ca|reflexivity]. cbn [obind set_nthv].
      erewrite set_field_at; [|exact A0|apply put_same|reflexivity]. cbn [obind set_nthv].
      erewrite set_field_at; [|exact A0|apply put_same|reflexivity]. cbn [obind set_nthv].
      eexists. split; [reflexivity|]. split; [|reflexivity]. intros x Hx. rewrite !put_other by exact Hx. reflexivity. }
    destruct (init_good 3 [0%nat] apre h a h1 W eq_refl) as (G & EH & K & Oo); [intros i [<-|[]]; eexists; reflexivity|reflexivity|exact E1|exact A0|].
    exists a, h1. split; [exact E1|]. destruct G as (W1 & _ & L & _). split; [exact W1|]. split; [lia|]. split; [exact Oo|]. right. split; [exact A|]. split; [exact A0|]. split; [reflexivity|]. split.
    + exists []. split; [exact L|]. split; [constructor|reflexivity].
    + intros x Hx. rewrite C1 by exact Hx. apply Cx. exact Hx.
Qed.

Lemma free_alist : forall h H items F, heap_wf h -> alist h H items F ->
  exists h', free_array_list h H = Ok h' /\ released h h' F /\ heap_wf h' /\ hp_next h' = hp_next h /\ hp_oom h' = hp_oom h.
Proof.
  intros h H items F W (ns & L & _ & ->). destruct (free_list_ok 3 [0%nat] h H apre ns W L) as (h' & E & [R1 R2] & Hn & Ho).
  exists h'. split; [exact E|]. split; [split; [exact R1|exact R2]|]. split; [|auto]. destruct W as (W1 & W2 & W3). split; [lia|].
  assert (K : forall a, hp_cell h a = Fresh -> hp_cell h' a = Fresh).
  { intros a Ha. rewrite R2; [exact Ha|]. intros Hin. destruct (R1 a Hin) as [[b Hb] _]. congruence. }
  split; [apply K; exact W2|]. intros a Ha. apply K. apply W3. lia.
Qed.
Lemma only_free_alist : forall base h H items F S h', only base h S -> alist h H items F -> released h h' F -> heap_wf h' -> hp_next h' = hp_next h -> only base h' (fun a => S a /\ ~ In a F).
Proof.
  intros base h H items F S h' (W & B & L) A [R1 R2] W' Hn. split; [exact W'|]. split; [lia|]. intros a Ha. destruct (in_dec N.eq_dec a F) as [Hin|Hni].
  - destruct (R1 a Hin) as [_ Q]. split; [intros [b Hb]; congruence|tauto].
  - unfold is_live. rewrite (R2 a Hni). rewrite <- (L a Ha). unfold is_live. tauto.
Qed.

Lemma push_alist : forall h H items F arr d len fl, heap_wf h -> alist h H items F -> arr <> 0 -> hp_cell h arr = Live (Buf d) -> len <= blen d ->
  (hp_oom h (hp_next h) = true /\ exists h', push_array_list h H arr len fl = Ok ((-1)%Z, h') /\ heap_wf h' /\ hp_next h' = hp_next h + 1 /\ hp_oom h' = hp_oom h /\ (forall x, hp_cell h' x = hp_cell h x)) \/
  (hp_oom h (hp_next h) = false /\ hp_oom h (hp_next h + 1) = true /\ push_array_list h H arr len fl = UB NullDeref) \/
  (hp_oom h (hp_next h) = false /\ hp_oom h (hp_next h + 1) = false /\ exists h' F', push_array_list h H arr len fl = Ok (0%Z, h') /\
     heap_wf h' /\ hp_next h' = hp_next h + 2 /\ hp_oom h' = hp_oom h /\ alist h' H (items ++ [(firstn (N.to_nat len) d, fl)]) F' /\
     (forall a, In a F' <-> In a F \/ a = hp_next h \/ a = hp_next h + 1) /\
     (forall a, ~ In a F -> a <> hp_next h -> a <> hp_next h + 1 -> hp_cell h' a = hp_cell h a)).
Proof.
  intros h H items F arr d len fl W AL A0 Earr Hle. pose proof AL as (ns & LO & It & EF). destruct (alist_head _ _ _ _ AL) as [_ H0].
  unfold push_array_list. rewrite (proj2 (N.eqb_neq _ _) H0), (proj2 (N.eqb_neq _ _) A0).
  destruct (alloc_cases h arr_node W) as [el [h1 [Ea [W1 [Hn1 [Ho1 C1]]]]]]. rewrite Ea. clear Ea.
  destruct C1 as [[-> [Oom Cx]]|[Hel [El0 [Oom [Cel [Cfr Cx]]]]]].
  { left. cbn [N.eqb]. split; [exact Oom|]. exists h1. auto. }
  right. rewrite (proj2 (N.eqb_neq _ _) El0). unfold heap_memdup. rewrite (proj2 (N.eqb_neq _ _) A0). rewrite Ho1, Hn1.
  destruct (hp_oom h (hp_next h + 1)) eqn:Oom2.
  { left. split; [exact Oom|]. split; [reflexivity|]. unfold alloc. rewrite Ho1, Hn1, Oom2. cbn [obind].
    unfold set_field at 1. rewrite (load_struct _ el [P 0; I 0; I 0; P 0; P 0; P 0] El0) by (cbn [hp_cell]; exact Cel). cbn [obind nth_error set_nthv N.eqb].
    erewrite (zero_node_crash 3 [0%nat] _ el apre El0 eq_refl); [reflexivity|apply put_same| |reflexivity].
    cbn [free_fields]. erewrite get_ptr_at; [|exact El0|apply put_same|reflexivity]. cbn [obind N.eqb]. reflexivity. }
  right. split; [exact Oom|]. split; [reflexivity|].
  assert (Hae : arr <> el) by congruence.
  assert (Hl : load_buf h1 arr = Ok (Some d)). { unfold load_buf. rewrite (proj2 (N.eqb_neq _ _) A0). rewrite Cx, Earr by congruence. reflexivity. }
  rewrite Hl. cbn [obind]. unfold sys_memdup, take_mem. cbn [negb]. rewrite (proj2 (N.leb_le _ _) Hle). cbn [obind].
  set (c := firstn (N.to_nat len) d).
  destruct (alloc_cases h1 (Buf c) W1) as [b [h2 [Eb [W2 [Hn2 [Ho2 C2]]]]]]. rewrite Eb. clear Eb.
  destruct C2 as [[-> [Q _]]|[Hb [B0 [_ [Cb [Cbf Cy]]]]]]; [rewrite Ho1, Hn1, Oom2 in Q; discriminate|].
  assert (Hbe : el <> b) by lia.
  assert (Cel2 : hp_cell h2 el = Live (Struct [P 0; I 0; I 0; P 0; P 0; P 0])) by (rewrite Cy by exact Hbe; exact Cel).
  erewrite set_field_at; [|exact El0|exact Cel2|reflexivity]. cbn [obind set_nthv]. rewrite (proj2 (N.eqb_neq _ _) B0).
  erewrite set_field_at; [|exact El0|apply put_same|reflexivity]. cbn [obind set_nthv].
  erewrite set_field_at; [|exact El0|apply put_same|reflexivity]. cbn [obind set_nthv].
  match goal with |- context [dl_list_add_tail _ ?x _ _ _] => set (hn := x) end.
  assert (Hlen : blen c = len). { unfold c, blen in *. rewrite firstn_length. lia. }
  assert (Fb : hp_cell h b = Fresh) by (rewrite <- Cx by lia; exact Cbf).
  assert (Own : own [0%nat] [P b; I (Z.of_N len); I fl] = [b]).
  { unfold own, ptr_at. cbn [map nth_error filter]. rewrite (proj2 (N.eqb_neq _ _) B0). reflexivity. }
  assert (Hel' : el = hp_next h) by exact Hel. assert (Hb' : b = hp_next h + 1) by lia.
  assert (Oth : forall a, a <> el -> a <> b -> hp_cell hn a = hp_cell h a).
  { intros a Q1 Q2. unfold hn. rewrite !put_other by exact Q1. rewrite Cy by exact Q2. apply Cx. exact Q1. }
  assert (Dis : forall a, In a [el; b] -> ~ In a F).
  { intros a Ha Hin. destruct (alist_live _ _ _ _ _ AL Hin) as [y Hy]. destruct Ha as [<-|[<-|[]]]; congruence. }
  assert (Wn : heap_wf hn).
  { destruct W2 as [V1 [V2 V3]]. split; [exact V1|]. split; [unfold hn; rewrite !put_other by congruence; exact V2|].
    intros a Ha. unfold hn in *. cbn [put hp_next] in Ha. rewrite !put_other by lia. apply V3. exact Ha. }
  assert (LOn : list_ok 3 [0%nat] hn H apre ns).
  { eapply list_frame; [|exact LO]. intros a Ha. apply Oth; intros ->; [apply (Dis el)|apply (Dis b)]; cbn; auto; subst F; exact Ha. }
  destruct (add_ok 3 [0%nat] hn H apre ns el [P b; I (Z.of_N len); I fl] 0 0 0 LOn) as [h' [F1 [F2 [F3 [F4 F5]]]]].
  - exact El0.
  - reflexivity.
  - intros i [<-|[]]. eexists. reflexivity.
  - unfold hn. apply put_same.
  - rewrite Own. constructor; [intros [E|[]]; congruence|]. constructor; [intros []|constructor].
  - rewrite Own. intros a Ha Hin. apply (Dis a Ha). subst F. exact Hin.
  - rewrite Own. intros a [<-|[]]. exists (Buf c). unfold hn. rewrite !put_other by congruence. exact Cb.
  - assert (Bf : forall a, In a (bufs [0%nat] ns) \/ a = b -> hp_cell h' a = hp_cell hn a).
    { intros a Ha. apply F5. destruct Ha as [Ha| ->].
      - assert (Hp : In a F) by (rewrite EF; right; apply in_or_app; right; exact Ha).
        destruct LO as [_ [_ [_ [_ [D _]]]]]. apply NoDup_cons_iff in D. destruct D as [D1 D2]. intros [<-|[Q|Hin]].
        + apply D1. apply in_or_app. right. exact Ha.
        + rewrite <- Q in Hp. exact (Dis _ (or_introl eq_refl) Hp).
        + apply in_split in Hin. destruct Hin as [u [v E]]. rewrite E in D2. rewrite <- app_assoc in D2. cbn [app] in D2.
          apply NoDup_remove_2 in D2. apply D2. apply in_or_app. right. apply in_or_app. right. exact Ha.
      - intros [Q|[Q|Hin]]; [|congruence|].
        + apply (Dis b); [cbn; auto|]. rewrite <- Q, EF. left. reflexivity.
        + apply (Dis b); [cbn; auto|]. rewrite EF. right. apply in_or_app. left. exact Hin. }
    unfold arr_off. rewrite F1. cbn [obind]. exists h', (print [0%nat] (ns ++ [(el, [P b; I (Z.of_N len); I fl])]) H). split; [reflexivity|]. split.
    { destruct Wn as [V1 [V2 V3]]. assert (K : forall a, hp_cell hn a = Fresh -> hp_cell h' a = Fresh).
      { intros a Ha. rewrite F5; [exact Ha|]. intros Hin. assert (L : is_live hn a).
        { destruct Hin as [<-|[<-|Hin]].
          - apply (list_live 3 [0%nat] hn H apre ns H LOn). left. reflexivity.
          - eexists. unfold hn. apply put_same.
          - apply (list_live 3 [0%nat] hn H apre ns a LOn). right. apply in_or_app. left. exact Hin. }
        destruct L as [y Hy]. congruence. }
      split; [rewrite F3; exact V1|]. split; [apply K; exact V2|]. intros a Ha. apply K. apply V3. rewrite <- F3. exact Ha. }
    split; [rewrite F3; unfold hn; cbn [put hp_next]; lia|]. split; [rewrite F4; unfold hn; cbn [put hp_oom]; congruence|].
    split; [|split].
    + exists (ns ++ [(el, [P b; I (Z.of_N len); I fl])]). split; [exact F2|]. split; [|reflexivity].
      apply Forall2_app.
      * eapply aitem_frame; [exact It|]. intros a Ha. rewrite Bf by (left; exact Ha). assert (Hp : In a F) by (rewrite EF; right; apply in_or_app; right; exact Ha).
        apply Oth; intros ->; [apply (Dis el)|apply (Dis b)]; cbn; auto.
      * constructor; [|constructor]. exists b. cbn [fst snd]. fold c. split; [exact B0|]. split; [rewrite Hlen; reflexivity|]. rewrite Bf by (right; reflexivity). unfold hn. rewrite !put_other by congruence. exact Cb.
    + intros a. rewrite EF. unfold print. rewrite bufs_app, map_app. unfold bufs at 2. cbn [map flat_map fst snd]. rewrite Own. cbn [app In]. rewrite !in_app_iff. cbn [In]. rewrite <- Hb', <- Hel'. intuition.
    + intros a Ha Q1 Q2. rewrite F5; [apply Oth; congruence|]. intros [Q|[Q|Hin]]; [apply Ha; rewrite EF, <- Q; left; reflexivity|congruence|]. apply Ha. rewrite EF. right. apply in_or_app. left. exact Hin.
Qed.
