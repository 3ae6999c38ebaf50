(** Reasoning about functions that acquire blocks one after another and release
    them in a clean-up sequence. *)
From Coq Require Import Permutation.
From Verif Require Import Base PBase MOs MBase64 MVoucher MCrypto MHeap MArray MVoucherHeap MConfig MHandlers SBase64 SHeap SArray SConfig PBase64 PHeap PArray PBlocks PConfig PConfigMore PCertFiles.
Open Scope N_scope.

(** *** Extensions: memory that exists is not touched *)
Definition ext (h h' : heap) : Prop := heap_wf h' /\ hp_next h <= hp_next h' /\ kept (hp_next h) h h' /\ hp_oom h' = hp_oom h.

Lemma ext_refl : forall h, heap_wf h -> ext h h.
Proof. intros h W. split; [exact W|]. split; [lia|]. split; [intros a _; reflexivity|reflexivity]. Qed.
Lemma ext_trans : forall a b c, ext a b -> ext b c -> ext a c.
Proof.
  intros a b c (W1 & N1 & K1 & O1) (W2 & N2 & K2 & O2). split; [exact W2|]. split; [lia|]. split; [|congruence].
  intros x Hx. rewrite K2 by lia. apply K1. exact Hx.
Qed.
Lemma ext_plenty : forall h h', ext h h' -> plenty h -> plenty h'.
Proof. intros h h' (_ & _ & _ & O) PL a. rewrite O. apply PL. Qed.

Lemma ext_live : forall h h' a, heap_wf h -> ext h h' -> is_live h a -> hp_cell h' a = hp_cell h a.
Proof. intros h h' a W (_ & _ & K & _) L. apply K. eapply live_below; eassumption. Qed.

Lemma ext_load : forall h h' a fs, heap_wf h -> ext h h' -> load h a = Ok fs -> load h' a = Ok fs.
Proof.
  intros h h' a fs W E H. unfold load in *. destruct (a =? 0); [discriminate|]. destruct (hp_cell h a) as [|[d|fs']|] eqn:C; try discriminate.
  rewrite (ext_live h h' a W E) by (eexists; exact C). rewrite C. exact H.
Qed.
Lemma ext_get_ptr : forall h h' a i p, heap_wf h -> ext h h' -> get_ptr h a i = Ok p -> get_ptr h' a i = Ok p.
Proof.
  intros h h' a i p W E H. unfold get_ptr, get_field in *. destruct (load h a) as [fs|] eqn:L; [|discriminate]. rewrite (ext_load _ _ _ _ W E L). exact H.
Qed.
Lemma ext_get_int : forall h h' a i p, heap_wf h -> ext h h' -> get_int h a i = Ok p -> get_int h' a i = Ok p.
Proof.
  intros h h' a i p W E H. unfold get_int, get_field in *. destruct (load h a) as [fs|] eqn:L; [|discriminate]. rewrite (ext_load _ _ _ _ W E L). exact H.
Qed.
Lemma ext_load_buf : forall h h' a d, heap_wf h -> ext h h' -> load_buf h a = Ok d -> load_buf h' a = Ok d.
Proof.
  intros h h' a d W E H. unfold load_buf in *. destruct (a =? 0); [exact H|]. destruct (hp_cell h a) as [|[x|fs']|] eqn:C; try discriminate.
  rewrite (ext_live h h' a W E) by (eexists; exact C). rewrite C. exact H.
Qed.
Lemma ext_string : forall h h' a s, heap_wf h -> ext h h' -> heap_string h a = Ok s -> heap_string h' a = Ok s.
Proof.
  intros h h' a s W E H. unfold heap_string in *. destruct (load_buf h a) as [d|] eqn:L; [|discriminate]. rewrite (ext_load_buf _ _ _ _ W E L). exact H.
Qed.
Lemma ext_opt_string : forall h h' a s, heap_wf h -> ext h h' -> opt_string h a = Ok s -> opt_string h' a = Ok s.
Proof.
  intros h h' a s W E H. unfold opt_string in *. destruct (a =? 0); [exact H|]. destruct (heap_string h a) as [d|] eqn:L; [|discriminate]. rewrite (ext_string _ _ _ _ W E L). exact H.
Qed.
Lemma ext_barray : forall h h' a s, heap_wf h -> ext h h' -> h_barray h a = Ok s -> h_barray h' a = Ok s.
Proof.
  intros h h' a s W E H. unfold h_barray in *. destruct (a =? 0); [exact H|].
  destruct (get_ptr h a 0) as [p|] eqn:L1; [|discriminate]. rewrite (ext_get_ptr _ _ _ _ _ W E L1). cbn [obind] in *.
  destruct (get_int h a 1) as [z|] eqn:L2; [|discriminate]. rewrite (ext_get_int _ _ _ _ _ W E L2). cbn [obind] in *.
  destruct (load_buf h p) as [d|] eqn:L3; [|discriminate]. rewrite (ext_load_buf _ _ _ _ W E L3). exact H.
Qed.

Lemma ext_walk : forall off h h' lst, heap_wf h -> ext h h' -> forall fuel fuel' item l, (fuel <= fuel')%nat ->
  dl_list_for_each_from off h lst fuel item = Ok l -> dl_list_for_each_from off h' lst fuel' item = Ok l.
Proof.
  intros off h h' lst W E. induction fuel as [|fuel IH]; intros fuel' item l Hf H; [discriminate|]. destruct fuel' as [|fuel']; [lia|].
  cbn [dl_list_for_each_from] in *. destruct (item =? lst); [exact H|].
  destruct (get_ptr h item off) as [n|] eqn:L1; [|discriminate]. rewrite (ext_get_ptr _ _ _ _ _ W E L1). cbn [obind] in *.
  destruct (get_ptr h n (off + 2)) as [e|] eqn:L2; [|discriminate]. rewrite (ext_get_ptr _ _ _ _ _ W E L2). cbn [obind] in *.
  destruct (dl_list_for_each_from off h lst fuel e) as [r|] eqn:L3; [|discriminate]. rewrite (IH fuel' e r); [exact H|lia|exact L3].
Qed.
Lemma ext_for_each : forall off h h' lst l, heap_wf h -> ext h h' -> dl_list_for_each off h lst = Ok l -> dl_list_for_each off h' lst = Ok l.
Proof.
  intros off h h' lst l W E H. unfold dl_list_for_each in *.
  destruct (get_ptr h lst off) as [n|] eqn:L1; [|discriminate]. rewrite (ext_get_ptr _ _ _ _ _ W E L1). cbn [obind] in *.
  destruct (get_ptr h n (off + 2)) as [e|] eqn:L2; [|discriminate]. rewrite (ext_get_ptr _ _ _ _ _ W E L2). cbn [obind] in *.
  eapply ext_walk; [exact W|exact E| |exact H]. destruct E as (_ & Q & _). lia.
Qed.
Lemma ext_count : forall off h h' lst, heap_wf h -> ext h h' -> forall fuel fuel' item c l, (fuel <= fuel')%nat ->
  dl_list_len_from off h lst fuel item c = Ok l -> dl_list_len_from off h' lst fuel' item c = Ok l.
Proof.
  intros off h h' lst W E. induction fuel as [|fuel IH]; intros fuel' item c l Hf H; [discriminate|]. destruct fuel' as [|fuel']; [lia|].
  cbn [dl_list_len_from] in *. destruct (item =? lst); [exact H|].
  destruct (get_ptr h item off) as [n|] eqn:L1; [|discriminate]. rewrite (ext_get_ptr _ _ _ _ _ W E L1). cbn [obind] in *. apply IH; [lia|exact H].
Qed.
Lemma ext_len : forall off h h' lst l, heap_wf h -> ext h h' -> dl_list_len off h lst = Ok l -> dl_list_len off h' lst = Ok l.
Proof.
  intros off h h' lst l W E H. unfold dl_list_len in *.
  destruct (get_ptr h lst off) as [n|] eqn:L1; [|discriminate]. rewrite (ext_get_ptr _ _ _ _ _ W E L1). cbn [obind] in *.
  eapply ext_count; [exact W|exact E| |exact H]. destruct E as (_ & Q & _). lia.
Qed.

(** *** What a pointer owns *)
Definition arr_blocks (h : heap) (p : N) (F : list N) : Prop :=
  exists b n, p <> 0 /\ hp_cell h p = Live (Struct [P b; I n]) /\
    (b = 0 /\ F = [p] \/ b <> 0 /\ b <> p /\ (exists d, hp_cell h b = Live (Buf d)) /\ F = [p; b]).
Definition owns (h : heap) (x : owned) (F : list N) : Prop :=
  match x with
  | OArr p => p = 0 /\ F = [] \/ arr_blocks h p F
  | OList p => p = 0 /\ F = [] \/ exists items, alist h p items F
  | OBuf p => p = 0 /\ F = [] \/ p <> 0 /\ is_live h p /\ F = [p]
  end.

Lemma owns_live : forall h x F a, owns h x F -> In a F -> is_live h a.
Proof.
  intros h [p|p|p] F a H Ha; cbn [owns] in H.
  - destruct H as [[_ ->]|(b & n & P0 & C & [[_ ->]|(B0 & _ & [d D] & ->)])]; [destruct Ha| |].
    + destruct Ha as [<-|[]]. eexists. exact C.
    + destruct Ha as [<-|[<-|[]]]; eexists; eassumption.
  - destruct H as [[_ ->]|[items A]]; [destruct Ha|]. eapply alist_live; eassumption.
  - destruct H as [[_ ->]|(P0 & L & ->)]; [destruct Ha|]. destruct Ha as [<-|[]]. exact L.
Qed.
Lemma owns_frame : forall h h' x F, owns h x F -> (forall a, In a F -> hp_cell h' a = hp_cell h a) -> owns h' x F.
Proof.
  intros h h' [p|p|p] F H E; cbn [owns] in *.
  - destruct H as [H|(b & n & P0 & C & [[B ->]|(B0 & Bp & [d D] & ->)])]; [left; exact H| |]; right; exists b, n; (split; [exact P0|]).
    + split; [rewrite E by (left; reflexivity); exact C|]. left. auto.
    + split; [rewrite E by (left; reflexivity); exact C|]. right. split; [exact B0|]. split; [exact Bp|]. split; [|reflexivity]. exists d. rewrite E by (right; left; reflexivity). exact D.
  - destruct H as [H|[items A]]; [left; exact H|]. right. exists items. eapply alist_frame; eassumption.
  - destruct H as [H|(P0 & [y L] & ->)]; [left; exact H|]. right. split; [exact P0|]. split; [|reflexivity]. exists y. rewrite E by (left; reflexivity). exact L.
Qed.

Lemma put2_released : forall h p b x y, p <> 0 -> b <> p -> is_live h p -> is_live h b -> forall h', (forall a, a <> p -> a <> b -> hp_cell h' a = hp_cell h a) -> hp_cell h' p = Freed -> hp_cell h' b = Freed -> x = p -> y = b -> released h h' [x; y].
Proof.
  intros h p b x y P0 Bp Lp Lb h' E Cp Cb -> ->. split.
  - intros a [<-|[<-|[]]]; auto.
  - intros a Ha. apply E; intros ->; apply Ha; cbn; auto.
Qed.

Lemma released_wf : forall h h' l, heap_wf h -> released h h' l -> hp_next h' = hp_next h -> heap_wf h'.
Proof.
  intros h h' l (W1 & W2 & W3) [R1 R2] Hn. assert (K : forall a, hp_cell h a = Fresh -> hp_cell h' a = Fresh).
  { intros a Ha. rewrite R2; [exact Ha|]. intros Hin. destruct (R1 a Hin) as [[b Hb] _]. congruence. }
  split; [lia|]. split; [apply K; exact W2|]. intros a Ha. apply K. apply W3. lia.
Qed.

Lemma owns_free : forall h x F, heap_wf h -> owns h x F ->
  exists h', free_owned h x = Ok h' /\ released h h' F /\ heap_wf h' /\ hp_next h' = hp_next h /\ hp_oom h' = hp_oom h.
Proof.
  intros h x F W H. assert (NIL : forall h, heap_wf h -> exists h', Ok h = Ok h' /\ released h h' [] /\ heap_wf h' /\ hp_next h' = hp_next h /\ hp_oom h' = hp_oom h).
  { intros h1 W1. exists h1. split; [reflexivity|]. split; [split; [intros a []|reflexivity]|auto]. }
  destruct x as [p|p|p]; cbn [owns free_owned] in *.
  - destruct H as [[-> ->]|(b & n & P0 & C & H)]; [apply NIL; exact W|].
    unfold h_free_binary_array. rewrite (proj2 (N.eqb_neq _ _) P0). rewrite (get_ptr_cell _ _ 0%nat _ b P0 C eq_refl). cbn [obind].
    destruct H as [[-> ->]|(B0 & Bp & [d D] & ->)].
    + cbn [N.eqb obind]. erewrite set_field_at; [|exact P0|exact C|reflexivity]. cbn [obind set_nthv].
      match goal with |- context [sys_free ?h1 p] => set (h2 := h1) end.
      assert (L2 : is_live h2 p) by (eexists; apply put_same).
      assert (W2 : heap_wf h2) by (eapply wf_write; [exact W|exact P0|exact C|auto]).
      destruct (free_live h2 p W2 L2) as [E3 W3]. rewrite E3. eexists. split; [reflexivity|]. split; [|split; [exact W3|split; reflexivity]].
      split; [intros a [<-|[]]; split; [eexists; exact C|apply put_same]|]. intros a Ha. assert (a <> p) by (intros ->; apply Ha; left; reflexivity). unfold h2. rewrite !put_other by assumption. reflexivity.
    + rewrite (proj2 (N.eqb_neq _ _) B0). assert (Lb : is_live h b) by (eexists; exact D). destruct (free_live h b W Lb) as [E1 W1]. rewrite E1. cbn [obind].
      assert (C1 : hp_cell (put h b Freed) p = Live (Struct [P b; I n])) by (rewrite put_other by congruence; exact C).
      erewrite set_field_at; [|exact P0|exact C1|reflexivity]. cbn [obind set_nthv]. erewrite set_field_at; [|exact P0|apply put_same|reflexivity]. cbn [obind set_nthv].
      match goal with |- context [sys_free ?h1 p] => set (h2 := h1) end.
      assert (L2 : is_live h2 p) by (eexists; apply put_same).
      assert (W2 : heap_wf h2). { unfold h2. eapply wf_write; [|exact P0|apply put_same|auto]. eapply wf_write; [exact W1|exact P0|exact C1|auto]. }
      destruct (free_live h2 p W2 L2) as [E3 W3]. rewrite E3. eexists. split; [reflexivity|]. split; [|split; [exact W3|split; reflexivity]].
      assert (Lp : is_live h p) by (eexists; exact C).
      eapply (put2_released h p b p b); try reflexivity; try assumption; unfold h2.
      * intros a A1 A2. rewrite !put_other by assumption. reflexivity.
      * rewrite put_same. reflexivity.
      * rewrite !put_other by congruence. rewrite put_same. reflexivity.
  - destruct H as [[-> ->]|[items A]]; [apply NIL; exact W|]. destruct (free_alist h p items F W A) as (h' & E & R & W' & Hn & Ho). exists h'. auto.
  - destruct H as [[-> ->]|(P0 & L & ->)]; [apply NIL; exact W|]. destruct (free_live h p W L) as [E W']. rewrite E. eexists. split; [reflexivity|]. split; [|split; [exact W'|split; reflexivity]].
    split; [intros a [<-|[]]; split; [exact L|apply put_same]|]. intros a Ha. rewrite put_other; [reflexivity|]. intros ->. apply Ha. left. reflexivity.
Qed.

(** *** Several owned pointers *)
Definition oprint (l : list (owned * list N)) : list N := List.concat (map snd l).
Definition st (base : N) (h : heap) (l : list (owned * list N)) : Prop :=
  only base h (fun a => In a (oprint l)) /\ Forall (fun e => owns h (fst e) (snd e)) l /\ NoDup (oprint l) /\ (forall a, In a (oprint l) -> base <= a).

Lemma oprint_perm : forall l l', Permutation l l' -> Permutation (oprint l) (oprint l').
Proof.
  intros l l' P. induction P as [|e a b P IH|e1 e2 a|a b c P1 IH1 P2 IH2]; unfold oprint in *; cbn [map List.concat] in *.
  - constructor.
  - apply Permutation_app_head. exact IH.
  - rewrite !app_assoc. apply Permutation_app_tail. apply Permutation_app_comm.
  - eapply Permutation_trans; eassumption.
Qed.
Lemma st_perm : forall base h l l', Permutation l l' -> st base h l -> st base h l'.
Proof.
  intros base h l l' P (O & Ow & ND & B). pose proof (oprint_perm _ _ P) as PP.
  assert (I : forall a, In a (oprint l) <-> In a (oprint l')) by (intros a; split; apply Permutation_in; [exact PP|apply Permutation_sym; exact PP]).
  split; [eapply only_iff; [exact O|]; intros a _; apply I|]. split; [eapply Permutation_Forall; [exact P|exact Ow]|]. split; [eapply Permutation_NoDup; eassumption|].
  intros a Ha. apply B. apply I. exact Ha.
Qed.
Lemma st_init : forall h, heap_wf h -> st (hp_next h) h [].
Proof. intros h W. split; [apply only_init; exact W|]. split; [constructor|]. split; [constructor|]. intros a Ha. destruct Ha. Qed.
Lemma st_wf : forall base h l, st base h l -> heap_wf h.
Proof. intros base h l (O & _). apply O. Qed.
Lemma st_leak : forall base h, st base h [] -> no_leak base h.
Proof. intros base h (O & _). apply only_leak. exact O. Qed.

Lemma disjoint_app : forall (a b : list N), NoDup a -> NoDup b -> (forall x, In x a -> ~ In x b) -> NoDup (a ++ b).
Proof.
  induction a as [|x a IH]; intros b Na Nb D; [exact Nb|]. inversion Na; subst. cbn [app]. constructor.
  - intros Q. apply in_app_or in Q. destruct Q as [Q|Q]; [contradiction|]. apply (D x); [left; reflexivity|exact Q].
  - apply IH; [assumption|assumption|]. intros y Hy. apply D. right. exact Hy.
Qed.
Lemma disjoint_of_NoDup : forall (a b : list N), NoDup (a ++ b) -> forall x, In x a -> ~ In x b.
Proof.
  induction a as [|y a IH]; intros b ND x Hx Q; [destruct Hx|]. inversion ND as [|? ? H1 H2]; subst. destruct Hx as [->|Hx].
  - apply H1. apply in_or_app. right. exact Q.
  - exact (IH b H2 x Hx Q).
Qed.

Lemma oprint_app : forall l l', oprint (l ++ l') = oprint l ++ oprint l'.
Proof. intros l l'. unfold oprint. rewrite map_app, concat_app. reflexivity. Qed.
Lemma oprint_in : forall l e a, In e l -> In a (snd e) -> In a (oprint l).
Proof. intros l e a He Ha. unfold oprint. apply in_concat. exists (snd e). split; [apply in_map; exact He|exact Ha]. Qed.
Lemma st_live : forall base h l a, st base h l -> In a (oprint l) -> is_live h a.
Proof. intros base h l a ((_ & _ & L) & _ & _ & B) Ha. apply L; [apply B; exact Ha|exact Ha]. Qed.
Lemma st_low : forall base h l a, st base h l -> In a (oprint l) -> a < hp_next h.
Proof. intros base h l a S Ha. eapply live_below; [eapply st_wf; exact S|eapply st_live; eassumption]. Qed.

(** What a later piece of code acquires adds to what is held. *)
Lemma st_acquire : forall base h l h' l', st base h l -> ext h h' -> st (hp_next h) h' l' -> st base h' (l' ++ l).
Proof.
  intros base h l h' l' S0 E S1. pose proof S0 as ((W & B & L) & Os & ND & Bl). pose proof E as (W' & Hn & K & Oo). pose proof S1 as ((_ & _ & L') & Os' & ND' & Bl').
  assert (Low : forall a, In a (oprint l) -> a < hp_next h) by (intros a Ha; exact (st_low _ _ _ _ S0 Ha)).
  split; [|split; [|split]].
  - split; [exact W'|]. split; [lia|]. intros a Ha. rewrite oprint_app, in_app_iff. destruct (N.lt_ge_cases a (hp_next h)) as [Q|Q].
    + unfold is_live. rewrite (K a Q). split; [intros H; right; apply L; assumption|]. intros [H|H]; [apply Bl' in H; lia|]. apply L; assumption.
    + rewrite (L' a Q). split; [auto|]. intros [H|H]; [exact H|]. apply Low in H. lia.
  - apply Forall_app. split; [exact Os'|]. rewrite Forall_forall in *. intros e He. eapply owns_frame; [apply Os; exact He|]. intros a Ha. apply K. apply Low. eapply oprint_in; eassumption.
  - rewrite oprint_app. apply disjoint_app; [exact ND'|exact ND|]. intros a Ha Q. apply Bl' in Ha. apply Low in Q. lia.
  - intros a Ha. rewrite oprint_app, in_app_iff in Ha. destruct Ha as [Ha|Ha]; [apply Bl' in Ha; lia|apply Bl; exact Ha].
Qed.

Lemma st_one : forall base h x F, only base h (fun a => In a F) -> owns h x F -> NoDup F -> (forall a, In a F -> base <= a) -> st base h [(x, F)].
Proof.
  intros base h x F O Ow ND B. assert (E : oprint [(x, F)] = F) by (unfold oprint; cbn [map List.concat snd]; apply app_nil_r).
  unfold st. rewrite E. split; [exact O|]. split; [constructor; [exact Ow|constructor]|]. split; [exact ND|exact B].
Qed.
Lemma st_null : forall base h l x, st base h l -> owns h x [] -> st base h ((x, []) :: l).
Proof. intros base h l x (O & Ow & ND & B) H. split; [exact O|]. split; [constructor; [exact H|exact Ow]|]. split; [exact ND|exact B]. Qed.

(** Releasing one of them. *)
Lemma st_free : forall base h x F l, st base h ((x, F) :: l) ->
  exists h', free_owned h x = Ok h' /\ st base h' l /\ released h h' F /\ hp_next h' = hp_next h /\ hp_oom h' = hp_oom h.
Proof.
  intros base h x F l S. pose proof S as ((W & B & L) & Ow & ND & Bl). inversion Ow as [|? ? O1 O2]; subst. cbn [fst snd] in O1.
  destruct (owns_free h x F W O1) as (h' & E & R & W' & Hn & Ho). exists h'. split; [exact E|]. split; [|auto]. pose proof R as [R1 R2].
  change (oprint ((x, F) :: l)) with (F ++ oprint l) in *.
  assert (D : forall a, In a (oprint l) -> ~ In a F) by (intros a Ha Q; exact (disjoint_of_NoDup _ _ ND a Q Ha)).
  split; [|split; [|split]].
  - split; [exact W'|]. split; [lia|]. intros a Ha. destruct (in_dec N.eq_dec a F) as [Hin|Hni].
    + destruct (R1 a Hin) as [_ Q]. split; [intros [b Hb]; congruence|]. intros H. exfalso. exact (D a H Hin).
    + unfold is_live. rewrite (R2 a Hni). fold (is_live h a). rewrite (L a Ha), in_app_iff. tauto.
  - rewrite Forall_forall in *. intros e He. eapply owns_frame; [apply O2; exact He|]. intros a Ha. apply R2. apply D. eapply oprint_in; eassumption.
  - clear - ND. induction F as [|y F IH]; [exact ND|]. inversion ND; subst. apply IH. assumption.
  - intros a Ha. apply Bl. apply in_or_app. right. exact Ha.
Qed.

Lemma st_cleanup : forall base l1 l2 h, st base h (l1 ++ l2) ->
  exists h', cleanup h (map fst l1) = Ok h' /\ st base h' l2 /\ released h h' (oprint l1) /\ hp_next h' = hp_next h /\ hp_oom h' = hp_oom h.
Proof.
  intros base. induction l1 as [|[x F] l1 IH]; intros l2 h S; cbn [map cleanup].
  - exists h. split; [reflexivity|]. split; [exact S|]. split; [split; [intros a []|reflexivity]|auto].
  - cbn [app] in S. destruct (st_free _ _ _ _ _ S) as (h1 & E1 & S1 & R1 & Hn1 & Ho1). cbn [fst]. rewrite E1. cbn [obind].
    destruct (IH l2 h1 S1) as (h2 & E2 & S2 & R2 & Hn2 & Ho2). exists h2. split; [exact E2|]. split; [exact S2|]. split; [|split; congruence].
    destruct R1 as [A1 A2], R2 as [B1 B2]. change (oprint ((x, F) :: l1)) with (F ++ oprint l1). split.
    + intros a Ha. apply in_app_or in Ha. destruct (in_dec N.eq_dec a F) as [Hin|Hni].
      * destruct (A1 a Hin) as [La Ca]. split; [exact La|]. destruct (in_dec N.eq_dec a (oprint l1)) as [Q|Q]; [apply B1; exact Q|]. rewrite B2 by exact Q. exact Ca.
      * destruct Ha as [Ha|Ha]; [contradiction|]. destruct (B1 a Ha) as [[y La] Ca]. split; [|exact Ca]. exists y. rewrite A2 in La by exact Hni. exact La.
    + intros a Ha. rewrite in_app_iff in Ha. rewrite B2 by tauto. apply A2. tauto.
Qed.

Definition is_null (x : owned) : Prop := match x with OArr p => p = 0 | OList p => p = 0 | OBuf p => p = 0 end.
Lemma null_owns : forall h x, is_null x -> owns h x [].
Proof. intros h [p|p|p] H; cbn in *; left; auto. Qed.
Lemma st_nulls : forall base h l nulls, st base h l -> Forall is_null nulls -> st base h (map (fun x => (x, [])) nulls ++ l).
Proof. intros base h l nulls S. induction nulls as [|x r IH]; intros H; [exact S|]. inversion H; subst. cbn [map app]. apply st_null; [apply IH; assumption|apply null_owns; assumption]. Qed.

Lemma perm_lift : forall (l : list (owned * list N)) xs, Permutation xs (map fst l) -> exists l', Permutation l' l /\ map fst l' = xs.
Proof.
  intros l xs P. apply Permutation_map_inv in P. destruct P as (l' & E & P). exists l'. split; [apply Permutation_sym; exact P|symmetry; exact E].
Qed.
(** The clean-up of everything that is held, in any order and with NULL pointers in between. *)
Lemma cleanup_all : forall base h l xs nulls, st base h l -> Forall is_null nulls -> Permutation xs (nulls ++ map fst l) ->
  exists h', cleanup h xs = Ok h' /\ st base h' [] /\ kept base h h' /\ hp_next h' = hp_next h /\ hp_oom h' = hp_oom h.
Proof.
  intros base h l xs nulls S Nl P. pose proof (st_nulls _ _ _ _ S Nl) as S1.
  assert (E : nulls ++ map fst l = map fst (map (fun x => (x, @nil N)) nulls ++ l)) by (rewrite map_app, map_map; cbn [fst]; rewrite map_id; reflexivity).
  rewrite E in P. destruct (perm_lift _ _ P) as (l' & P' & <-).
  pose proof (st_perm _ _ _ _ (Permutation_sym P') S1) as S2. rewrite <- (app_nil_r l') in S2.
  destruct (st_cleanup base l' [] h S2) as (h' & E' & S' & [_ R] & Hn & Ho). exists h'. split; [exact E'|]. split; [exact S'|]. split; [|auto].
  intros a Ha. apply R. intros Q. destruct S2 as (_ & _ & _ & B). rewrite app_nil_r in B. apply B in Q. lia.
Qed.
(** The same up to a pointer to a released block. *)
Lemma cleanup_app : forall xs ys h, cleanup h (xs ++ ys) = obind (cleanup h xs) (fun h => cleanup h ys).
Proof. induction xs as [|x xs IH]; intros ys h; [reflexivity|]. cbn [app cleanup]. destruct (free_owned h x); cbn [obind]; [apply IH|reflexivity]. Qed.
Lemma cleanup_crash : forall base h l l1 l2 xs nulls x ys, st base h l -> Permutation l (l1 ++ l2) -> Forall is_null nulls -> Permutation xs (nulls ++ map fst l1) ->
  (forall h', (forall a, ~ is_live h a -> hp_cell h' a = hp_cell h a) -> exists k, free_owned h' x = UB k) -> exists k, cleanup h (xs ++ x :: ys) = UB k.
Proof.
  intros base h l l1 l2 xs nulls x ys S Pl Nl P Bad. pose proof (st_perm _ _ _ _ Pl S) as S0. pose proof (st_nulls _ _ _ _ S0 Nl) as S1. rewrite app_assoc in S1.
  assert (E : nulls ++ map fst l1 = map fst (map (fun x => (x, @nil N)) nulls ++ l1)) by (rewrite map_app, map_map; cbn [fst]; rewrite map_id; reflexivity).
  rewrite E in P. destruct (perm_lift _ _ P) as (l' & P' & <-).
  assert (S2 : st base h (l' ++ l2)). { eapply st_perm; [|exact S1]. apply Permutation_app_tail. apply Permutation_sym. exact P'. }
  destruct (st_cleanup base l' l2 h S2) as (h' & E' & S' & R & Hn & Ho). rewrite cleanup_app, E'. cbn [obind cleanup].
  destruct (Bad h') as [k Ek]; [|exists k; rewrite Ek; reflexivity]. intros a Ha. apply R. intros Q. apply Ha. apply R. exact Q.
Qed.
Lemma freed_buf : forall h p, p <> 0 -> hp_cell h p = Freed -> forall h', (forall a, ~ is_live h a -> hp_cell h' a = hp_cell h a) -> exists k, free_owned h' (OBuf p) = UB k.
Proof.
  intros h p P0 C h' E. cbn [free_owned]. unfold sys_free. rewrite (proj2 (N.eqb_neq _ _) P0). rewrite E, C; [eexists; reflexivity|]. intros [b Q]. congruence.
Qed.
Lemma freed_list : forall h p, p <> 0 -> hp_cell h p = Freed -> forall h', (forall a, ~ is_live h a -> hp_cell h' a = hp_cell h a) -> exists k, free_owned h' (OList p) = UB k.
Proof.
  intros h p P0 C h' E. cbn [free_owned]. exists UseAfterFree. apply free_dangling_list; [exact P0|]. rewrite E; [exact C|]. intros [b Q]. congruence.
Qed.

(** Permutations of concrete lists. *)
Ltac split_at x ys acc :=
  lazymatch ys with
  | x :: ?r => constr:((acc, r))
  | ?y :: ?r => let acc' := eval cbn [app] in (acc ++ [y]) in split_at x r acc'
  end.
Ltac perm :=
  cbn [app map fst];
  repeat lazymatch goal with
  | |- Permutation [] [] => constructor
  | |- Permutation (?x :: ?xs) ?ys =>
    let T := type of x in
    let ab := split_at x ys (@nil T) in
    lazymatch ab with (?a, ?b) => apply (Permutation_cons_app a b x); cbn [app] end
  end.

(** *** Acquiring *)
Definition arrived (h h' : heap) (x : owned) : Prop := ext h h' /\ exists F, st (hp_next h) h' [(x, F)].

Lemma arrived_list : forall base h l h' x, st base h l -> arrived h h' x -> exists F, st base h' ((x, F) :: l).
Proof. intros base h l h' x S (E & F & S1). exists F. apply (st_acquire _ _ _ _ _ S E S1). Qed.
