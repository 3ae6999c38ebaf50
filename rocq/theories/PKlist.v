(** Reasoning about code that owns several key/value lists at once. *)
From Coq Require Import Permutation.
From Verif Require Import Base PBase MOs MHeap MArray SHeap SArray PHeap PArray PBlocks.
Open Scope N_scope.

Definition klist (h : heap) (H : N) (items : list (bytes * bytes)) (F : list N) : Prop :=
  exists ns, list_ok 2 [0%nat; 1%nat] h H kpre ns /\ Forall2 (kitem h) ns items /\ F = print [0%nat; 1%nat] ns H.

Lemma klist_frame : forall h h' H items F, klist h H items F -> (forall a, In a F -> hp_cell h' a = hp_cell h a) -> klist h' H items F.
Proof.
  intros h h' H items F (ns & L & It & ->) E. exists ns. split; [eapply list_frame; [|exact L]; exact E|]. split; [|reflexivity].
  eapply kitem_frame; [exact It|]. intros a Ha. apply E. right. apply in_or_app. right. exact Ha.
Qed.
Lemma klist_live : forall h H items F a, klist h H items F -> In a F -> is_live h a.
Proof. intros h H items F a (ns & L & _ & ->) Ha. eapply list_live; eassumption. Qed.
Lemma klist_head : forall h H items F, klist h H items F -> In H F /\ H <> 0.
Proof. intros h H items F (ns & L & _ & ->). split; [left; reflexivity|]. destruct L as [[_ [Q _]] _]. exact Q. Qed.

Lemma klist_items : forall h H items F, heap_wf h -> klist h H items F -> keyvalue_items h H = Ok items.
Proof.
  intros h H items F W (ns & L & It & _).
  unfold keyvalue_items. rewrite (for_each_ok kv_off kv_owned h H kpre ns W L). cbn [obind]. apply each_ok. eapply Forall2_in_l; [exact It|].
  intros [a pre] it Hin (k & v & kd & vd & K0 & V0 & Hs & Hk & Hv & Zk & Zv & ->). cbn [fst snd] in *. subst pre. destruct L as [[_ [_ [_ [S _]]]] _].
  destruct (seg_cell 2 ns h H H a _ S Hin) as [A0 [n [r Hc]]]. unfold node in Hc. cbn [app] in Hc.
  unfold kv_item. erewrite get_ptr_at; [|exact A0|exact Hc|reflexivity]. cbn [obind]. erewrite get_ptr_at; [|exact A0|exact Hc|reflexivity]. cbn [obind].
  rewrite (heap_string_exact h k kd K0 Hk Zk). cbn [obind]. rewrite (heap_string_exact h v vd V0 Hv Zv). reflexivity.
Qed.

Lemma init_klist : forall h, heap_wf h -> exists H h1, init_keyvalue_list h = Ok (H, h1) /\ heap_wf h1 /\ hp_next h1 = hp_next h + 1 /\ hp_oom h1 = hp_oom h /\
  ((H = 0 /\ hp_oom h (hp_next h) = true /\ forall x, hp_cell h1 x = hp_cell h x) \/
   (H = hp_next h /\ H <> 0 /\ hp_oom h (hp_next h) = false /\ klist h1 H [] [H] /\ forall x, x <> H -> hp_cell h1 x = hp_cell h x)).
Proof.
  intros h W. unfold init_keyvalue_list. destruct (hp_oom h (hp_next h)) eqn:Oom.
  - unfold init_list, alloc. rewrite Oom. cbn [N.eqb]. eexists _, _. split; [reflexivity|]. split; [|split; [reflexivity|split; [reflexivity|left; auto]]].
    destruct W as (W1 & W2 & W3). split; [cbn; lia|]. split; [exact W2|]. intros a Ha. cbn in *. apply W3. lia.
  - destruct (alloc_cases h kv_node W) as (a & h' & E & W' & Hn & Ho & C). destruct C as [(_ & Q & _)|(A & A0 & _ & Ca & Cf & Cx)]; [congruence|].
    assert (exists h1, init_list kv_off kv_node h = Ok (a, h1) /\ (forall x, x <> a -> hp_cell h1 x = hp_cell h' x) /\ hp_next h1 = hp_next h') as (h1 & E1 & C1 & N1).
    { unfold init_list. rewrite E. rewrite (proj2 (N.eqb_neq _ _) A0). unfold dl_list_init, kv_off.
      erewrite set_field_at; [|exact A0|exact Ca|reflexivity]. cbn [obind set_nthv].
      erewrite set_field_at; [|exact A0|apply put_same|reflexivity]. cbn [obind set_nthv].
      erewrite set_field_at; [|exact A0|apply put_same|reflexivity]. cbn [obind set_nthv].
      eexists. split; [reflexivity|]. split; [|reflexivity]. intros x Hx. rewrite !put_other by exact Hx. reflexivity. }
    destruct (init_good 2 [0%nat; 1%nat] kpre h a h1 W eq_refl) as (G & EH & K & Oo); [intros i [<-|[<-|[]]]; eexists; reflexivity|reflexivity|exact E1|exact A0|].
    exists a, h1. split; [exact E1|]. destruct G as (W1 & _ & L & _). split; [exact W1|]. split; [lia|]. split; [exact Oo|]. right. split; [exact A|]. split; [exact A0|]. split; [reflexivity|]. split.
    + exists []. split; [exact L|]. split; [constructor|reflexivity].
    + intros x Hx. rewrite C1 by exact Hx. apply Cx. exact Hx.
Qed.

Lemma free_klist : forall h H items F, heap_wf h -> klist h H items F ->
  exists h', free_keyvalue_list h H = Ok h' /\ released h h' F /\ heap_wf h' /\ hp_next h' = hp_next h /\ hp_oom h' = hp_oom h.
Proof.
  intros h H items F W (ns & L & _ & ->). destruct (free_list_ok 2 [0%nat; 1%nat] h H kpre ns W L) as (h' & E & [R1 R2] & Hn & Ho).
  exists h'. split; [exact E|]. split; [split; [exact R1|exact R2]|]. split; [|auto]. destruct W as (W1 & W2 & W3). split; [lia|].
  assert (K : forall a, hp_cell h a = Fresh -> hp_cell h' a = Fresh).
  { intros a Ha. rewrite R2; [exact Ha|]. intros Hin. destruct (R1 a Hin) as [[b Hb] _]. congruence. }
  split; [apply K; exact W2|]. intros a Ha. apply K. apply W3. lia.
Qed.

Lemma push_klist : forall h H items F key kd value vd, heap_wf h -> klist h H items F -> key <> 0 -> value <> 0 ->
  hp_cell h key = Live (Buf kd) -> stringy kd -> hp_cell h value = Live (Buf vd) -> stringy vd ->
  (hp_oom h (hp_next h) = true /\ exists h', push_keyvalue_list h H key value = Ok ((-1)%Z, h') /\ heap_wf h' /\ hp_next h' = hp_next h + 1 /\ hp_oom h' = hp_oom h /\ (forall x, hp_cell h' x = hp_cell h x)) \/
  ((hp_oom h (hp_next h + 1) = true \/ hp_oom h (hp_next h + 2) = true) /\ push_keyvalue_list h H key value = UB NullDeref) \/
  (hp_oom h (hp_next h) = false /\ exists h' F', push_keyvalue_list h H key value = Ok (0%Z, h') /\
     heap_wf h' /\ hp_next h' = hp_next h + 3 /\ hp_oom h' = hp_oom h /\ klist h' H (items ++ [(c_string kd, c_string vd)]) F' /\
     Permutation F' (F ++ [hp_next h; hp_next h + 1; hp_next h + 2]) /\
     (forall a, ~ In a F -> a <> hp_next h -> a <> hp_next h + 1 -> a <> hp_next h + 2 -> hp_cell h' a = hp_cell h a)).
Proof.
  intros h H items F key kd value vd W KL A0 B0 Ckey0 Skd0 Cval0 Svd0. pose proof KL as (ns & LO & It & EF). destruct (klist_head _ _ _ _ KL) as [_ H0].
  assert (Vlt : value < hp_next h) by (apply live_below; [exact W|eexists; exact Cval0]).
  unfold push_keyvalue_list. rewrite (proj2 (N.eqb_neq _ _) H0), (proj2 (N.eqb_neq _ _) A0), (proj2 (N.eqb_neq _ _) B0).
  destruct (alloc_cases h kv_node W) as [el [h1 [Ea [W1 [Hn1 [Ho1 C1]]]]]]. rewrite Ea. clear Ea.
  destruct C1 as [[-> [Oom Cx]]|[Hel [El0 [Oom [Cel [Cfr Cx]]]]]].
  { left. cbn [N.eqb]. split; [exact Oom|]. exists h1. auto. }
  right. rewrite (proj2 (N.eqb_neq _ _) El0).
  assert (Old : forall x b, hp_cell h x = Live b -> hp_cell h1 x = Live b) by (intros x b Hb; rewrite Cx by congruence; exact Hb).
  pose proof (heap_strdup_ok h1 key W1 A0) as K.
  destruct (heap_strdup h1 key) as [[k h2]|u]; cbn [obind].
  2:{ exfalso. exact (K kd (Old _ _ Ckey0) Skd0). }
  destruct K as [W2 [Hn2 [Ho2 K]]]. rewrite Ho1, Hn1 in K.
  destruct K as [[-> [Oom2 Cy]]|(kd' & Ckey & Skd & Hk & K0 & Oom2 & Ck & Ckf & Cy)].
  { left. split; [left; exact Oom2|]. erewrite set_field_at; [|exact El0|rewrite Cy; exact Cel|reflexivity]. cbn [obind set_nthv N.eqb].
    erewrite (zero_node_crash 2 [0%nat; 1%nat] _ el kpre El0 eq_refl); [reflexivity|apply put_same| |reflexivity].
    cbn [free_fields]. erewrite get_ptr_at; [|exact El0|apply put_same|reflexivity]. cbn [obind N.eqb].
    erewrite get_ptr_at; [|exact El0|apply put_same|reflexivity]. cbn [obind N.eqb]. reflexivity. }
  assert (kd' = kd) as ->. { rewrite (Old _ _ Ckey0) in Ckey. congruence. }
  assert (Hke : el <> k) by lia.
  erewrite set_field_at; [|exact El0|rewrite Cy by exact Hke; exact Cel|reflexivity]. cbn [obind set_nthv]. rewrite (proj2 (N.eqb_neq _ _) K0).
  match goal with |- context [heap_strdup ?x value] => set (h3 := x) end.
  assert (W3 : heap_wf h3).
  { destruct W2 as [V1 [V2 V3]]. split; [exact V1|]. split; [unfold h3; rewrite put_other by congruence; exact V2|]. intros a Ha. unfold h3 in *. cbn [put hp_next] in Ha. rewrite put_other by lia. apply V3. exact Ha. }
  assert (Old3 : forall x b, hp_cell h x = Live b -> hp_cell h3 x = Live b).
  { intros x b Hb. assert (x <> el) by congruence. assert (x <> k). { intros ->. rewrite (Old _ _ Hb) in Ckf. discriminate. } unfold h3. rewrite put_other, Cy by assumption. apply Old. exact Hb. }
  pose proof (heap_strdup_ok h3 value W3 B0) as V.
  destruct (heap_strdup h3 value) as [[v h4]|u]; cbn [obind].
  2:{ exfalso. exact (V vd (Old3 _ _ Cval0) Svd0). }
  destruct V as [W4 [Hn4 [Ho4 V]]].
  assert (Hn3 : hp_next h3 = hp_next h + 2) by (unfold h3; cbn [put hp_next]; lia).
  assert (Ho3 : hp_oom h3 = hp_oom h) by (unfold h3; cbn [put hp_oom]; congruence).
  rewrite Ho3, Hn3 in V.
  assert (Cel3 : hp_cell h3 el = Live (Struct [P k; P 0; P 0; P 0; P 0])) by (unfold h3; apply put_same).
  destruct V as [[-> [Oom3 Cz]]|(vd' & Cval & Svd & Hv & V0 & Oom3 & Cv & Cvf & Cz)].
  { left. split; [right; exact Oom3|]. erewrite set_field_at; [|exact El0|rewrite Cz; exact Cel3|reflexivity]. cbn [obind set_nthv N.eqb].
    erewrite (zero_node_crash 2 [0%nat; 1%nat] _ el [P k; P 0] El0 eq_refl); [reflexivity|apply put_same| |].
    - cbn [free_fields]. erewrite get_ptr_at; [|exact El0|apply put_same|reflexivity]. cbn [obind]. rewrite (proj2 (N.eqb_neq _ _) K0).
      unfold sys_free. rewrite (proj2 (N.eqb_neq _ _) K0). rewrite put_other by congruence. rewrite Cz. unfold h3 at 1. rewrite put_other by congruence. rewrite Ck. cbn [obind].
      erewrite get_ptr_at; [|exact El0|rewrite put_other by exact Hke; apply put_same|reflexivity]. cbn [obind N.eqb]. reflexivity.
    - rewrite put_other by exact Hke. reflexivity. }
  assert (vd' = vd) as ->. { rewrite (Old3 _ _ Cval0) in Cval. congruence. }
  right. split; [exact Oom|].
  assert (Hve : el <> v) by lia. assert (Hvk : k <> v) by lia.
  erewrite set_field_at; [|exact El0|rewrite Cz by exact Hve; exact Cel3|reflexivity]. cbn [obind set_nthv]. rewrite (proj2 (N.eqb_neq _ _) V0).
  match goal with |- context [dl_list_add_tail _ ?x _ _ _] => set (hn := x) end.
  assert (Oth : forall x, x <> el -> x <> k -> x <> v -> hp_cell hn x = hp_cell h x).
  { intros x X1 X2 X3. unfold hn. rewrite put_other by exact X1. rewrite Cz by exact X3. unfold h3. rewrite put_other by exact X1. rewrite Cy by exact X2. apply Cx. exact X1. }
  assert (Ckn : hp_cell hn k = Live (Buf (c_string kd ++ [0]))).
  { unfold hn. rewrite put_other by congruence. rewrite Cz by exact Hvk. unfold h3. rewrite put_other by congruence. exact Ck. }
  assert (Cvn : hp_cell hn v = Live (Buf (c_string vd ++ [0]))).
  { unfold hn. rewrite put_other by congruence. exact Cv. }
  assert (Hel' : el = hp_next h) by exact Hel. assert (Hk' : k = hp_next h + 1) by lia. assert (Hv' : v = hp_next h + 2) by lia.
  assert (Fk : hp_cell h k = Fresh) by (destruct W as [_ [_ W']]; apply W'; lia).
  assert (Fv : hp_cell h v = Fresh) by (destruct W as [_ [_ W']]; apply W'; lia).
  assert (Own := own_kv k v K0 V0).
  assert (Dis : forall a, In a [el; k; v] -> ~ In a F).
  { intros a Ha Hin. destruct (klist_live _ _ _ _ _ KL Hin) as [y Hy]. destruct Ha as [<-|[<-|[<-|[]]]]; congruence. }
  assert (Wn : heap_wf hn).
  { destruct W4 as [X1 [X2 X3]]. split; [exact X1|]. split; [unfold hn; rewrite put_other by congruence; exact X2|].
    intros a Ha. unfold hn in *. cbn [put hp_next] in Ha. rewrite put_other by lia. apply X3. exact Ha. }
  assert (LOn : list_ok 2 [0%nat; 1%nat] hn H kpre ns).
  { eapply list_frame; [|exact LO]. intros a Ha. apply Oth; intros ->; [apply (Dis el)|apply (Dis k)|apply (Dis v)]; cbn; auto; subst F; exact Ha. }
  destruct (add_ok 2 [0%nat; 1%nat] hn H kpre ns el [P k; P v] 0 0 0 LOn) as [h' [F1 [F2 [F3 [F4 F5]]]]].
  - exact El0.
  - reflexivity.
  - intros i [<-|[<-|[]]]; eexists; reflexivity.
  - unfold hn. apply put_same.
  - rewrite Own. constructor; [intros [E|[E|[]]]; congruence|]. constructor; [intros [E|[]]; congruence|]. constructor; [intros []|constructor].
  - rewrite Own. intros a Ha Hin. apply (Dis a Ha). subst F. exact Hin.
  - rewrite Own. intros a [<-|[<-|[]]]; eexists; eassumption.
  - assert (Bf : forall a, In a (bufs [0%nat; 1%nat] ns) \/ a = k \/ a = v -> hp_cell h' a = hp_cell hn a).
    { intros a Ha. apply F5. destruct Ha as [Ha|Ha].
      - assert (Hp : In a F) by (rewrite EF; right; apply in_or_app; right; exact Ha).
        destruct LO as [_ [_ [_ [_ [D _]]]]]. apply NoDup_cons_iff in D. destruct D as [D1 D2]. intros [<-|[Q|Hin]].
        + apply D1. apply in_or_app. right. exact Ha.
        + rewrite <- Q in Hp. exact (Dis _ (or_introl eq_refl) Hp).
        + apply in_split in Hin. destruct Hin as [u1 [u2 E]]. rewrite E in D2. rewrite <- app_assoc in D2. cbn [app] in D2.
          apply NoDup_remove_2 in D2. apply D2. apply in_or_app. right. apply in_or_app. right. exact Ha.
      - assert (In a [el; k; v]) by (cbn; intuition). assert (a <> el) by (intros ->; intuition congruence). intros [Q|[Q|Hin]]; [|congruence|].
        + apply (Dis a); [assumption|]. rewrite <- Q, EF. left. reflexivity.
        + apply (Dis a); [assumption|]. rewrite EF. right. apply in_or_app. left. exact Hin. }
    unfold kv_off. rewrite F1. cbn [obind]. exists h', (print [0%nat; 1%nat] (ns ++ [(el, [P k; P v])]) H). split; [reflexivity|]. split.
    { destruct Wn as [V1 [V2 V3]]. assert (K : forall a, hp_cell hn a = Fresh -> hp_cell h' a = Fresh).
      { intros a Ha. rewrite F5; [exact Ha|]. intros Hin. assert (L : is_live hn a).
        { destruct Hin as [<-|[<-|Hin]].
          - apply (list_live 2 [0%nat; 1%nat] hn H kpre ns H LOn). left. reflexivity.
          - eexists. unfold hn. apply put_same.
          - apply (list_live 2 [0%nat; 1%nat] hn H kpre ns a LOn). right. apply in_or_app. left. exact Hin. }
        destruct L as [y Hy]. congruence. }
      split; [rewrite F3; exact V1|]. split; [apply K; exact V2|]. intros a Ha. apply K. apply V3. rewrite <- F3. exact Ha. }
    split; [rewrite F3; unfold hn; cbn [put hp_next]; lia|]. split; [rewrite F4; unfold hn; cbn [put hp_oom]; congruence|].
    split; [|split].
    + exists (ns ++ [(el, [P k; P v])]). split; [exact F2|]. split; [|reflexivity].
      apply Forall2_app.
      * eapply kitem_frame; [exact It|]. intros a Ha. rewrite Bf by (left; exact Ha). assert (Hp : In a F) by (rewrite EF; right; apply in_or_app; right; exact Ha).
        apply Oth; intros ->; [apply (Dis el)|apply (Dis k)|apply (Dis v)]; cbn; auto.
      * constructor; [|constructor]. destruct (c_string_again kd) as [Q1 Q2]. destruct (c_string_again vd) as [Q3 Q4].
        exists k, v, (c_string kd ++ [0]), (c_string vd ++ [0]). rewrite !Bf by auto. rewrite Q1, Q3. auto 10.
    + rewrite EF. unfold print. rewrite bufs_app, map_app. unfold bufs at 2. cbn [map flat_map fst snd]. rewrite Own, app_nil_r. cbn [app]. rewrite <- Hv', <- Hk', <- Hel'. apply Permutation_cons; [reflexivity|].
      rewrite <- !app_assoc. apply Permutation_app_head. cbn [app]. change (el :: bufs [0%nat; 1%nat] ns ++ [k; v]) with ([el] ++ (bufs [0%nat; 1%nat] ns ++ [k; v])). change [el; k; v] with ([el] ++ [k; v]). rewrite !app_assoc. apply Permutation_app_tail. apply Permutation_app_comm.
    + intros a Ha Q1 Q2 Q3. rewrite F5; [apply Oth; congruence|]. intros [Q|[Q|Hin]]; [apply Ha; rewrite EF, <- Q; left; reflexivity|congruence|]. apply Ha. rewrite EF. right. apply in_or_app. left. exact Hin.
Qed.
