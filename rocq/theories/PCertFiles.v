(** Proofs about load_cert_files. *)
From Verif Require Import Base PBase MOs MHeap MArray MConfig SHeap SArray SConfig PHeap PArray PBlocks PConfig PConfigMore.
Open Scope N_scope.

Lemma get_ptr_cell : forall h a i fs p, a <> 0 -> hp_cell h a = Live (Struct fs) -> nth_error fs i = Some (P p) -> get_ptr h a i = Ok p.
Proof. intros. eapply get_ptr_at; eassumption. Qed.
Lemma get_int_cell : forall h a i fs z, a <> 0 -> hp_cell h a = Live (Struct fs) -> nth_error fs i = Some (I z) -> get_int h a i = Ok z.
Proof. intros h a i fs z A0 C E. unfold get_int, get_field. rewrite (load_struct _ _ _ A0 C). cbn [obind]. rewrite E. reflexivity. Qed.

(** Reading one certificate. *)
Lemma x509_file : forall rd base h (S : N -> Prop) path t, only base h S -> heap_string h path = Ok t ->
  exists c h', h_file_to_x509buf rd h path = Ok (c, h') /\ hp_oom h' = hp_oom h /\ hp_next h <= hp_next h' /\
  ((c = 0 /\ (rd t = None \/ oomed h) /\ only base h' S /\ (forall x, S x -> hp_cell h' x = hp_cell h x) /\ (forall x, x < base -> hp_cell h' x = hp_cell h x)) \/
   (exists b d, rd t = Some d /\ c <> 0 /\ b <> 0 /\ c <> b /\ base <= c /\ base <= b /\ hp_cell h' c = Live (Struct [P b; I (Z.of_N (blen d))]) /\ hp_cell h' b = Live (Buf d) /\
      hp_cell h c = Fresh /\ hp_cell h b = Fresh /\ (forall x, x <> c -> x <> b -> hp_cell h' x = hp_cell h x) /\ only base h' (fun x => S x \/ x = c \/ x = b))).
Proof.
  intros rd base h S path t O Hp. unfold h_file_to_x509buf. rewrite Hp. cbn [obind]. destruct (rd t) as [d|] eqn:Er.
  2:{ exists 0, h. split; [reflexivity|]. split; [reflexivity|]. split; [lia|]. left. auto 10. }
  destruct (only_alloc _ _ _ (Struct [P 0; I 0]) O) as (c & h1 & E1 & Ho1 & Hn1 & C1). rewrite E1.
  destruct C1 as [(-> & Oo & Cx & O1)|(Hc & C0 & Bc & Oo & Cc & Fc & Cx & O1)].
  { cbn [N.eqb]. exists 0, h1. split; [reflexivity|]. split; [exact Ho1|]. split; [lia|]. left. split; [reflexivity|]. split; [right; exists (hp_next h); split; [lia|exact Oo]|]. auto. }
  rewrite (proj2 (N.eqb_neq _ _) C0). destruct (only_alloc _ _ _ (Buf d) O1) as (b & h2 & E2 & Ho2 & Hn2 & C2). rewrite E2.
  destruct C2 as [(-> & Oo2 & Cx2 & O2)|(Hb & B0 & Bb & Oo2 & Cb & Fb & Cx2 & O2)].
  { cbn [N.eqb]. assert (Lc : is_live h2 c) by (eexists; rewrite Cx2; exact Cc). destruct (free_live h2 c (proj1 O2) Lc) as [E3 W3]. rewrite E3. cbn [obind]. exists 0, (put h2 c Freed).
    split; [reflexivity|]. split; [cbn [put hp_oom]; congruence|]. split; [cbn [put hp_next]; lia|]. left. split; [reflexivity|]. split; [right; exists (hp_next h1); split; [lia|rewrite <- Ho1; exact Oo2]|].
    assert (Q : forall x, x <> c -> hp_cell (put h2 c Freed) x = hp_cell h x) by (intros x Hx; rewrite put_other, Cx2, Cx by exact Hx; reflexivity).
    assert (NS : forall x, S x -> x <> c \/ x < base). { intros x Hx. destruct (N.lt_ge_cases x base) as [Q'|Q']; [right; exact Q'|]. left. intros ->. destruct O as (_ & _ & L). apply (L c Bc) in Hx. destruct Hx as [y Hy]. congruence. }
    split; [|split].
    - eapply only_iff; [apply only_freed; [exact O2|exact Lc]|]. intros x Hx. cbn beta. split; [intros [[A|A] B]; [exact A|contradiction]|]. intros A. split; [left; exact A|]. destruct (NS x A); [assumption|lia].
    - intros x Hx. apply Q. destruct (NS x Hx); [assumption|lia].
    - intros x Hx. apply Q. lia. }
  rewrite (proj2 (N.eqb_neq _ _) B0). assert (Cb' : c <> b) by (intros ->; congruence).
  assert (Cc2 : hp_cell h2 c = Live (Struct [P 0; I 0])) by (rewrite Cx2 by exact Cb'; exact Cc).
  erewrite set_field_at; [|exact C0|exact Cc2|reflexivity]. cbn [obind set_nthv].
  erewrite set_field_at; [|exact C0|apply put_same|reflexivity]. cbn [obind set_nthv].
  match goal with |- context [Ok (c, ?x)] => set (h3 := x) end.
  exists c, h3. split; [reflexivity|]. split; [unfold h3; cbn [put hp_oom]; congruence|]. split; [unfold h3; cbn [put hp_next]; lia|]. right. exists b, d. split; [reflexivity|].
  split; [exact C0|]. split; [exact B0|]. split; [exact Cb'|]. split; [exact Bc|]. split; [exact Bb|]. split; [apply put_same|]. split; [unfold h3; rewrite !put_other by congruence; exact Cb|].
  split; [exact Fc|]. split; [rewrite <- Cx by congruence; exact Fb|]. split; [intros x X1 X2; unfold h3; rewrite !put_other by exact X1; rewrite Cx2, Cx by assumption; reflexivity|].
  assert (L2 : is_live h2 c) by (eexists; exact Cc2).
  eapply only_iff; [unfold h3; apply only_write; [apply only_write; [exact O2|exact L2]|eexists; apply put_same]|]. intros x _. cbn beta. tauto.
Qed.

(** Releasing it. *)
Lemma free_array : forall base h (S : N -> Prop) c b n d, only base h S -> c <> 0 -> b <> 0 -> c <> b -> hp_cell h c = Live (Struct [P b; I n]) -> hp_cell h b = Live (Buf d) ->
  exists h', h_free_binary_array h c = Ok h' /\ hp_oom h' = hp_oom h /\ hp_next h' = hp_next h /\ (forall x, x <> c -> x <> b -> hp_cell h' x = hp_cell h x) /\ only base h' (fun x => S x /\ x <> c /\ x <> b).
Proof.
  intros base h S c b n d O C0 B0 Ne Cc Cb. unfold h_free_binary_array. rewrite (proj2 (N.eqb_neq _ _) C0). rewrite (get_ptr_cell _ _ 0%nat _ b C0 Cc eq_refl). cbn [obind]. rewrite (proj2 (N.eqb_neq _ _) B0).
  assert (Lb : is_live h b) by (eexists; exact Cb). destruct (free_live h b (proj1 O) Lb) as [E1 W1]. rewrite E1. cbn [obind].
  assert (Cc1 : hp_cell (put h b Freed) c = Live (Struct [P b; I n])) by (rewrite put_other by exact Ne; exact Cc).
  pose proof (only_freed _ _ _ _ O Lb) as O1.
  erewrite set_field_at; [|exact C0|exact Cc1|reflexivity]. cbn [obind set_nthv]. erewrite set_field_at; [|exact C0|apply put_same|reflexivity]. cbn [obind set_nthv].
  match goal with |- context [sys_free ?x c] => set (h2 := x) end.
  assert (O2 : only base h2 (fun x => S x /\ x <> b)). { unfold h2. apply only_write; [apply only_write; [exact O1|eexists; exact Cc1]|eexists; apply put_same]. }
  assert (Lc : is_live h2 c) by (eexists; apply put_same). destruct (free_live h2 c (proj1 O2) Lc) as [E2 W2]. rewrite E2. exists (put h2 c Freed). split; [reflexivity|]. split; [reflexivity|]. split; [reflexivity|].
  split; [intros x X1 X2; unfold h2; rewrite !put_other by assumption; reflexivity|]. eapply only_iff; [apply only_freed; [exact O2|exact Lc]|]. intros x _. cbn beta. tauto.
Qed.

Lemma heap_string_frame : forall h h' a, hp_cell h' a = hp_cell h a -> heap_string h' a = heap_string h a.
Proof. intros h h' a E. unfold heap_string, load_buf. rewrite E. reflexivity. Qed.
Lemma get_ptr_frame : forall h h' a i, hp_cell h' a = hp_cell h a -> get_ptr h' a i = get_ptr h a i.
Proof. intros h h' a i E. unfold get_ptr, get_field, load. rewrite E. reflexivity. Qed.

(** Path nodes below [base]. *)
Definition path_at (base : N) (h : heap) (x : N) (t : bytes) : Prop := x < base /\ exists p, p < base /\ get_ptr h x 0 = Ok p /\ heap_string h p = Ok t.

Lemma cert_loop : forall rd base h0 out, base <= hp_next h0 -> forall xs ts h items F, Forall2 (path_at base h0) xs ts -> kept base h0 h ->
  only base h (fun a => In a F) -> alist h out items F -> (forall a, In a F -> base <= a) ->
  (load_cert_loop rd h out xs = UB NullDeref /\ oomed h) \/
  exists rc h', load_cert_loop rd h out xs = Ok (rc, h') /\ kept base h0 h' /\ hp_oom h' = hp_oom h /\
    ((rc = (-1)%Z /\ ((exists t, In t ts /\ rd t = None) \/ oomed h) /\ only base h' (fun _ => False) /\ hp_cell h' out = Freed) \/
     (rc = 0%Z /\ exists ds F', Forall2 (fun t d => rd t = Some d) ts ds /\ only base h' (fun a => In a F') /\ alist h' out (items ++ map (fun d => (d, 0%Z)) ds) F' /\ (forall a, In a F' -> base <= a))).
Proof.
  intros rd base h0 out Hb0. induction xs as [|x xs IH]; intros ts h items F HP K O AL Fb; cbn [load_cert_loop].
  { inversion HP; subst. right. exists 0%Z, h. split; [reflexivity|]. split; [exact K|]. split; [reflexivity|]. right. split; [reflexivity|]. exists [], F. cbn [map]. rewrite app_nil_r. auto. }
  inversion HP as [|? t ? ts' [Hx (p & Hpb & Gp & Hs)] HP']; subst. rewrite (get_ptr_frame h0 h) by (apply K; exact Hx). rewrite Gp. cbn [obind].
  assert (Hs' : heap_string h p = Ok t) by (rewrite (heap_string_frame h0 h) by (apply K; exact Hpb); exact Hs).
  assert (FREE : forall h1 items1 F1, only base h1 (fun a => In a F1) -> alist h1 out items1 F1 -> (forall a, In a F1 -> base <= a) -> kept base h0 h1 -> hp_oom h1 = hp_oom h ->
     exists h2, free_array_list h1 out = Ok h2 /\ kept base h0 h2 /\ hp_oom h2 = hp_oom h /\ only base h2 (fun _ => False) /\ hp_cell h2 out = Freed).
  { intros h1 items1 F1 O1 AL1 Fb1 K1 Ho1. destruct (free_alist h1 out items1 F1 (proj1 O1) AL1) as (h2 & E2 & R & W2 & Hn & Ho). exists h2. split; [exact E2|]. pose proof R as [R1 R2].
    split; [intros a Ha; rewrite R2; [apply K1; exact Ha|]; intros Q; apply Fb1 in Q; lia|]. split; [congruence|]. split; [eapply only_iff; [eapply only_free_alist; eassumption|]; intros a _; cbn beta; tauto|]. apply R1. apply (alist_head _ _ _ _ AL1). }
  destruct (x509_file rd base h _ p t O Hs') as (c & h1 & E1 & Ho1 & Hn1 & Cs). rewrite E1. cbn [obind].
  destruct Cs as [(-> & Hno & O1 & Cx & Low)|(b & d & Er & C0 & B0 & Ne & Bc & Bb & Cc & Cb & Fc & Fbb & Cx & O1)].
  { cbn [N.eqb]. right. destruct (FREE h1 items F O1) as (h2 & E2 & K2 & Ho2 & O2 & Cf); [eapply alist_frame; [exact AL|exact Cx]|exact Fb|intros a Ha; rewrite Low by exact Ha; apply K; exact Ha|exact Ho1|].
    rewrite E2. cbn [obind]. exists (-1)%Z, h2. split; [reflexivity|]. split; [exact K2|]. split; [exact Ho2|]. left. split; [reflexivity|]. split; [destruct Hno as [Q|Q]; [left; exists t; split; [left; reflexivity|exact Q]|right; exact Q]|]. auto. }
  rewrite (proj2 (N.eqb_neq _ _) C0). rewrite (get_ptr_cell _ _ 0%nat _ b C0 Cc eq_refl). cbn [obind]. rewrite (get_int_cell _ _ 1%nat _ _ C0 Cc eq_refl). cbn [obind]. rewrite N2Z.id.
  assert (NL : forall a, In a F -> a <> c /\ a <> b). { intros a Ha. destruct (alist_live _ _ _ _ _ AL Ha) as [y Hy]. split; intros ->; congruence. }
  assert (AL1 : alist h1 out items F). { eapply alist_frame; [exact AL|]. intros a Ha. destruct (NL a Ha). apply Cx; assumption. }
  assert (K1 : kept base h0 h1) by (intros a Ha; rewrite Cx by lia; apply K; exact Ha).
  pose proof O1 as (W1 & _ & Lv1). assert (Nb : forall a, is_live h1 a -> a < hp_next h1) by (intros; eapply live_below; eassumption).
  assert (c < hp_next h1 /\ b < hp_next h1) as [Nc Nbb] by (split; apply Nb; eexists; eassumption).
  destruct (push_alist h1 out items F b d (blen d) 0%Z W1 AL1 B0 Cb (N.le_refl _)) as [(Oo & h2 & E2 & W2 & Hn2 & Ho2 & Cx2)|[(Oo & Oo2 & E2)|(Oo & Oo2 & h2 & F2 & E2 & W2 & Hn2 & Ho2 & AL2 & HF2 & Cx2)]]; rewrite E2; cbn [obind].
  - change ((-1 <? 0)%Z) with true. cbv iota. right.
    assert (O2 : only base h2 (fun a => In a F \/ a = c \/ a = b)). { eapply only_same; [exact O1|exact W2|destruct O1 as (_ & Q & _); lia|intros; apply Cx2]. }
    destruct (free_array base h2 _ c b (Z.of_N (blen d)) d O2 C0 B0 Ne) as (h3 & E3 & Ho3 & Hn3 & Cx3 & O3); [rewrite Cx2; exact Cc|rewrite Cx2; exact Cb|]. rewrite E3. cbn [obind].
    destruct (FREE h3 items F) as (h4 & E4 & K4 & Ho4 & O4 & Cf).
    + eapply only_iff; [exact O3|]. intros a _. cbn beta. split; [tauto|]. intros Ha. destruct (NL a Ha). tauto.
    + eapply alist_frame; [exact AL1|]. intros a Ha. destruct (NL a Ha). rewrite Cx3, Cx2 by assumption. reflexivity.
    + exact Fb.
    + intros a Ha. rewrite Cx3, Cx2 by lia. apply K1. exact Ha.
    + congruence.
    + rewrite E4. cbn [obind]. exists (-1)%Z, h4. split; [reflexivity|]. split; [exact K4|]. split; [exact Ho4|]. left. split; [reflexivity|]. split; [right; exists (hp_next h1); split; [exact Hn1|rewrite <- Ho1; exact Oo]|]. auto.
  - left. split; [reflexivity|]. exists (hp_next h1 + 1). split; [lia|rewrite <- Ho1; exact Oo2].
  - change ((0 <? 0)%Z) with false. cbv iota. rewrite firstn_all2 in AL2 by (unfold blen; lia).
    assert (NF2 : ~ In c F2 /\ ~ In b F2). { split; intros Q; apply HF2 in Q; (destruct Q as [Q|Q]; [apply NL in Q; tauto|lia]). }
    assert (O2 : only base h2 (fun a => In a F2 \/ a = c \/ a = b)).
    { split; [exact W2|]. split; [destruct O1 as (_ & Q & _); lia|]. intros a Ha. split.
      - intros La. destruct (in_dec N.eq_dec a F2) as [Q|Q]; [left; exact Q|]. right. unfold is_live in La. rewrite Cx2 in La; [|intros Q'; apply Q; apply HF2; left; exact Q'|intros Q'; apply Q; apply HF2; right; left; exact Q'|intros Q'; apply Q; apply HF2; right; right; exact Q'].
        apply (Lv1 a Ha) in La. destruct La as [La|La]; [exfalso; apply Q; apply HF2; left; exact La|exact La].
      - intros [Q|[->| ->]]; [eapply alist_live; eassumption| |]; unfold is_live; rewrite Cx2; [eexists; exact Cc|intros Q; apply NL in Q; tauto|lia|lia|eexists; exact Cb|intros Q; apply NL in Q; tauto|lia|lia]. }
    destruct (free_array base h2 _ c b (Z.of_N (blen d)) d O2 C0 B0 Ne) as (h3 & E3 & Ho3 & Hn3 & Cx3 & O3).
    { rewrite Cx2; [exact Cc|intros Q; apply NL in Q; tauto|lia|lia]. } { rewrite Cx2; [exact Cb|intros Q; apply NL in Q; tauto|lia|lia]. }
    rewrite E3. cbn [obind].
    assert (Ho : hp_oom h3 = hp_oom h) by congruence. assert (Hn : hp_next h <= hp_next h3) by lia.
    assert (OU : oomed h3 -> oomed h). { intros (a & Ha & Q). exists a. split; [lia|]. rewrite <- Ho. exact Q. }
    destruct (IH ts' h3 (items ++ [(d, 0%Z)]) F2 HP') as [[EU Q]|(rc & h4 & E4 & K4 & Ho4 & Rs)].
    + intros a Ha. rewrite Cx3 by lia. rewrite Cx2; [apply K1; exact Ha| |destruct O1 as (_ & Q & _); lia|destruct O1 as (_ & Q & _); lia]. intros Q. apply Fb in Q. lia.
    + eapply only_iff; [exact O3|]. intros a _. cbn beta. split; [tauto|]. intros Ha. split; [tauto|]. split; intros ->; tauto.
    + eapply alist_frame; [exact AL2|]. intros a Ha. apply Cx3; intros ->; tauto.
    + intros a Ha. apply HF2 in Ha. destruct Ha as [Ha|Ha]; [apply Fb; exact Ha|]. destruct O1 as (_ & Q & _). lia.
    + left. split; [exact EU|]. apply OU. exact Q.
    + right. exists rc, h4. split; [exact E4|]. split; [exact K4|]. split; [congruence|]. destruct Rs as [(Rc & Q & R)|(Rc & ds & F' & Hd & R & AL' & R')].
      * left. split; [exact Rc|]. split; [|exact R]. destruct Q as [(t' & Ht & Q)|Q]; [left; exists t'; split; [right; exact Ht|exact Q]|right; apply OU; exact Q].
      * right. split; [exact Rc|]. exists (d :: ds), F'. split; [constructor; assumption|]. split; [exact R|]. split; [|exact R']. rewrite <- app_assoc in AL'. exact AL'.
Qed.

(** The list of paths as built with the list functions. *)
Lemma built_alist : forall h0 l rcs H h, built_array h0 l rcs H h -> heap_wf h /\ exists F, alist h H (accepted (array_arg h0) l rcs) F.
Proof.
  intros h0 l rcs H h B. destruct (built_array_inv _ _ _ _ _ B) as [(ns & G & It) _]. destruct G as (W & _ & L & _). split; [exact W|]. exists (print [0%nat] ns H), ns. auto.
Qed.

Lemma Forall2_map_some : forall (rd : bytes -> option bytes) ts ds, Forall2 (fun t d => rd t = Some d) ts ds -> map rd ts = map Some ds.
Proof. intros rd ts ds F. induction F; cbn [map]; congruence. Qed.

Lemma cert_files : forall rd h H items F, heap_wf h -> alist h H items F -> Forall (fun it => In 0 (fst it)) items -> items <> [] ->
  (exists out h1 h2 ds, load_cert_files rd h H = Ok (0%Z, out, h1) /\ map rd (map (fun it => c_string (fst it)) items) = map Some ds /\
     array_items h1 out = Ok (map (fun d => (d, 0%Z)) ds) /\ kept (hp_next h) h h1 /\ free_array_list h1 out = Ok h2 /\ kept (hp_next h) h h2 /\ no_leak (hp_next h) h2) \/
  (exists out h1, load_cert_files rd h H = Ok ((-1)%Z, out, h1) /\ (In None (map rd (map (fun it => c_string (fst it)) items)) \/ oomed h) /\ kept (hp_next h) h h1 /\ no_leak (hp_next h) h1 /\
     (out = 0 /\ hp_oom h (hp_next h) = true \/ out <> 0 /\ hp_oom h (hp_next h) = false /\ hp_cell h1 out = Freed)) \/
  (load_cert_files rd h H = UB NullDeref /\ oomed h).
Proof.
  intros rd h H items F W AL HZ Hne. destruct (alist_head _ _ _ _ AL) as [_ H0]. unfold load_cert_files. rewrite (proj2 (N.eqb_neq _ _) H0).
  destruct (alist_items _ _ _ _ W AL) as [_ EL]. rewrite EL. cbn [obind]. destruct (N.of_nat (List.length items) =? 0) eqn:Ez; [apply N.eqb_eq in Ez; destruct items; [contradiction|cbn [List.length] in Ez; lia]|].
  destruct (init_alist h W) as (out & h1 & E1 & W1 & Hn1 & Ho1 & Cs). rewrite E1. cbn [obind].
  destruct Cs as [(-> & Oo & Cx)|(HO & O0 & Oo & AL1 & Cx)].
  { cbn [N.eqb]. right. left. exists 0, h1. split; [reflexivity|]. split; [right; exists (hp_next h); split; [lia|exact Oo]|]. split; [intros a _; apply Cx|]. split; [|auto].
    intros a Ha [y Hy]. rewrite Cx in Hy. destruct W as (_ & _ & W3). rewrite W3 in Hy by exact Ha. discriminate. }
  rewrite (proj2 (N.eqb_neq _ _) O0). pose proof AL as (ns & LO & It & EF).
  assert (Below : forall a, In a F -> a < hp_next h) by (intros a Ha; eapply live_below; [exact W|eapply alist_live; eassumption]).
  assert (LO1 : list_ok 3 [0%nat] h1 H apre ns). { eapply list_frame; [|exact LO]. intros a Ha. apply Cx. assert (Q : In a F) by (rewrite EF; exact Ha). apply Below in Q. lia. }
  rewrite (for_each_ok arr_off arr_owned h1 H apre ns W1 LO1). cbn [obind].
  assert (PA : Forall2 (path_at (hp_next h) h) (map fst ns) (map (fun it => c_string (fst it)) items)).
  { destruct LO as [[_ [_ [_ [Sg _]]]] _].
    assert (G : Forall2 (fun n it => path_at (hp_next h) h (fst n) (c_string (fst it))) ns items).
    { clear LO1 EF AL EL Hne Ez. assert (HI : forall n it, In n ns -> In it items -> aitem h n it -> path_at (hp_next h) h (fst n) (c_string (fst it))).
      { intros [a pre] [c fl] Hin Hit [b [B0 [Hs Hb]]]. cbn [fst snd] in *. subst pre. destruct (seg_cell 3 ns h H H a _ Sg Hin) as [A0 [n [r Hc]]]. unfold node in Hc. cbn [app] in Hc.
        split; [eapply live_below; [exact W|eexists; exact Hc]|]. exists b. split; [eapply live_below; [exact W|eexists; exact Hb]|]. split; [eapply get_ptr_at; [exact A0|exact Hc|reflexivity]|].
        rewrite Forall_forall in HZ. apply heap_string_exact; [exact B0|exact Hb|apply (HZ _ Hit)]. }
      revert HI. clear - It. induction It as [|n it ns items H1 H2 IH]; intros HI; constructor; [apply HI; [left; reflexivity|left; reflexivity|exact H1]|]. apply IH. intros n' it' A B. apply HI; right; assumption. }
    clear - G. induction G; cbn [map]; constructor; assumption. }
  assert (K1 : kept (hp_next h) h h1) by (intros a Ha; apply Cx; lia).
  assert (O1 : only (hp_next h) h1 (fun a => In a [out])).
  { split; [exact W1|]. split; [lia|]. intros a Ha. split; [|intros [<-|[]]; eapply alist_live; [exact AL1|left; reflexivity]]. intros [y Hy]. destruct (N.eq_dec a out) as [->|Hx]; [left; reflexivity|]. rewrite Cx in Hy by exact Hx. destruct W as (_ & _ & W3). rewrite W3 in Hy by exact Ha. discriminate. }
  assert (OU : oomed h1 -> oomed h). { intros (a & Ha & Q). exists a. split; [lia|]. rewrite <- Ho1. exact Q. }
  destruct (cert_loop rd (hp_next h) h out (N.le_refl _) _ _ h1 [] [out] PA K1 O1 AL1) as [[EU Q]|(rc & h2 & E2 & K2 & Ho2 & Rs)].
  - intros a [<-|[]]. lia.
  - right. right. rewrite EU. cbn [obind]. split; [reflexivity|apply OU; exact Q].
  - rewrite E2. cbn [obind fst snd]. destruct Rs as [(-> & Q & O2 & Cf)|(-> & ds & F' & Hd & O2 & AL2 & Fb)].
    + right. left. exists out, h2. split; [reflexivity|]. split; [destruct Q as [(t & Ht & Q)|Q]; [left; rewrite <- Q; apply in_map; exact Ht|right; apply OU; exact Q]|]. split; [exact K2|]. split; [apply only_leak; exact O2|]. right. auto.
    + left. destruct (free_alist h2 out _ F' (proj1 O2) AL2) as (h3 & E3 & R & W3 & Hn3 & Ho3). exists out, h2, h3, ds. split; [reflexivity|]. split; [apply Forall2_map_some; exact Hd|].
      split; [apply (alist_items _ _ _ _ (proj1 O2) AL2)|]. split; [exact K2|]. split; [exact E3|]. pose proof R as [R1 R2]. split.
      * intros a Ha. rewrite R2; [apply K2; exact Ha|]. intros Q. apply Fb in Q. lia.
      * apply only_leak. eapply only_iff; [eapply only_free_alist; eassumption|]. intros a _. cbn beta. tauto.
Qed.

(** On lists built with the list functions. *)
Lemma cert_built : forall rd h0 l rcs H h, built_array h0 l rcs H h -> forall paths, paths = map fst (accepted (array_arg h0) l rcs) -> Forall (In 0) paths -> paths <> [] ->
  (exists out h1 h2 ds, load_cert_files rd h H = Ok (0%Z, out, h1) /\ map rd (map c_string paths) = map Some ds /\
     array_items h1 out = Ok (map (fun d => (d, 0%Z)) ds) /\ kept (hp_next h) h h1 /\ free_array_list h1 out = Ok h2 /\ kept (hp_next h) h h2 /\ no_leak (hp_next h) h2) \/
  (exists out h1, load_cert_files rd h H = Ok ((-1)%Z, out, h1) /\ (In None (map rd (map c_string paths)) \/ oomed h) /\ kept (hp_next h) h h1 /\ no_leak (hp_next h) h1 /\
     (out = 0 /\ hp_oom h (hp_next h) = true \/ out <> 0 /\ hp_oom h (hp_next h) = false /\ hp_cell h1 out = Freed)) \/
  (load_cert_files rd h H = UB NullDeref /\ oomed h).
Proof.
  intros rd h0 l rcs H h B paths -> HZ Hne. destruct (built_alist _ _ _ _ _ B) as [W [F AL]].
  assert (HZ' : Forall (fun it => In 0 (fst it)) (accepted (array_arg h0) l rcs)) by (rewrite Forall_map in HZ; exact HZ).
  assert (Hne' : accepted (array_arg h0) l rcs <> []) by (intros Q; apply Hne; rewrite Q; reflexivity).
  rewrite !(map_map fst c_string). apply (cert_files rd h H _ F W AL HZ' Hne').
Qed.
Lemma cert_none : forall rd h, load_cert_files rd h 0 = Ok (0%Z, 0, h).
Proof. reflexivity. Qed.
Lemma cert_empty : forall rd h0 l rcs H h, built_array h0 l rcs H h -> accepted (array_arg h0) l rcs = [] -> load_cert_files rd h H = Ok (0%Z, 0, h).
Proof.
  intros rd h0 l rcs H h B E. destruct (built_alist _ _ _ _ _ B) as [W [F AL]]. rewrite E in AL. destruct (alist_head _ _ _ _ AL) as [_ H0]. unfold load_cert_files. rewrite (proj2 (N.eqb_neq _ _) H0).
  destruct (alist_items _ _ _ _ W AL) as [_ ->]. reflexivity.
Qed.

Lemma oomed_plenty : forall h, plenty h -> ~ oomed h.
Proof. intros h PL (a & _ & Q). rewrite PL in Q. discriminate. Qed.
Lemma in_none : forall (rd : bytes -> option bytes) ts ds, map rd ts = map Some ds -> ~ In None (map rd ts).
Proof. intros rd ts ds E Q. rewrite E in Q. apply in_map_iff in Q. destruct Q as (d & Q & _). discriminate. Qed.

(** While memory lasts. *)
Lemma cert_success : forall rd h0 l rcs H h ds, built_array h0 l rcs H h -> plenty h -> forall paths, paths = map fst (accepted (array_arg h0) l rcs) -> Forall (In 0) paths -> paths <> [] ->
  map rd (map c_string paths) = map Some ds ->
  exists out h1 h2, load_cert_files rd h H = Ok (0%Z, out, h1) /\ array_items h1 out = Ok (map (fun d => (d, 0%Z)) ds) /\ kept (hp_next h) h h1 /\
    free_array_list h1 out = Ok h2 /\ kept (hp_next h) h h2 /\ no_leak (hp_next h) h2.
Proof.
  intros rd h0 l rcs H h ds B PL paths Ep HZ Hne Ed. destruct (cert_built rd _ _ _ _ _ B paths Ep HZ Hne) as [(out & h1 & h2 & ds' & E & Ed' & R)|[(out & h1 & _ & [Q|Q] & _)|[_ Q]]].
  - assert (ds' = ds) as ->. { rewrite Ed in Ed'. clear - Ed'. revert ds' Ed'. induction ds as [|d ds IH]; intros [|d' ds'] E; try discriminate; [reflexivity|]. cbn [map] in E. injection E as <- E. f_equal. apply IH. exact E. }
    exists out, h1, h2. tauto.
  - exfalso. eapply in_none; eassumption.
  - exfalso. eapply oomed_plenty; eassumption.
  - exfalso. eapply oomed_plenty; eassumption.
Qed.
Lemma cert_failure : forall rd h0 l rcs H h, built_array h0 l rcs H h -> plenty h -> forall paths, paths = map fst (accepted (array_arg h0) l rcs) -> Forall (In 0) paths ->
  In None (map rd (map c_string paths)) ->
  exists out h1, load_cert_files rd h H = Ok ((-1)%Z, out, h1) /\ kept (hp_next h) h h1 /\ no_leak (hp_next h) h1 /\
    out <> 0 /\ array_items h1 out = UB UseAfterFree /\ free_array_list h1 out = UB UseAfterFree.
Proof.
  intros rd h0 l rcs H h B PL paths Ep HZ Hin. assert (Hne : paths <> []) by (intros Q; rewrite Q in Hin; destruct Hin).
  destruct (cert_built rd _ _ _ _ _ B paths Ep HZ Hne) as [(out & h1 & h2 & ds' & E & Ed' & R)|[(out & h1 & E & _ & K & L & Cs)|[_ Q]]].
  - exfalso. eapply in_none; eassumption.
  - exists out, h1. destruct Cs as [[_ Q]|[O0 [_ Cf]]]; [rewrite PL in Q; discriminate|]. split; [exact E|]. split; [exact K|]. split; [exact L|]. split; [exact O0|]. split; [|apply free_dangling_list; assumption].
    unfold array_items, dl_list_for_each, get_ptr. rewrite (freed_field _ _ _ O0 Cf). reflexivity.
  - exfalso. eapply oomed_plenty; eassumption.
Qed.

Lemma cert_refuted : exists rd h0 l rcs H h out h1, built_array h0 l rcs H h /\ plenty h /\
  load_cert_files rd h H = Ok ((-1)%Z, out, h1) /\ out <> 0 /\ free_array_list h1 out = UB UseAfterFree.
Proof.
  destruct (array_total (toy_heap (fun _ => false)) [(1, 6, 0%Z); (2, 4, 0%Z)]) as [H [h B]].
  - apply toy_wf.
  - intros a. reflexivity.
  - repeat apply Forall_cons; try apply Forall_nil; right; eexists; (split; [reflexivity|vm_compute; discriminate]).
  - assert (PL : plenty h) by (destruct (built_array_inv _ _ _ _ _ B) as (_ & _ & _ & _ & Ho); intros a; rewrite Ho; reflexivity).
    destruct (cert_failure (fun t => if beqb t (s2b "hello") then Some [1; 2] else None) _ _ _ _ _ B PL _ eq_refl) as (out & h1 & E & _ & _ & O0 & _ & Fr).
    + vm_compute. repeat apply Forall_cons; try apply Forall_nil; tauto.
    + vm_compute. tauto.
    + eexists _, _, _, _, H, h, out, h1. split; [exact B|]. split; [exact PL|]. split; [exact E|]. split; [exact O0|exact Fr].
Qed.
