(** Proofs about the memory of the serialisation of a voucher: the lists and the
    JSON text. *)
From Coq Require Import Permutation.
From Verif Require Import Base PBase MOs MBase64 MSerialize SSerialize PSerialize MVoucher MHeap MArray SHeap SArray PHeap PArray PBlocks PKlist POwn
  MVoucherHeap MSerialHeap SSerialHeap PHold PSerialHeap.
Open Scope N_scope.

Lemma stringy_text : forall s, ~ In 0 s -> blen s < SIZE_MAX -> stringy (s ++ [0]) /\ c_string (s ++ [0]) = s.
Proof.
  intros s Z L. pose proof (c_string_plain s [] Z) as E. split; [|exact E]. split; [apply in_or_app; right; left; reflexivity|]. rewrite E. exact L.
Qed.

(** A function that returns a list, or NULL. *)
Definition lists (h : heap) (r : outcome (N * heap)) (t : option (list (bytes * bytes))) : Prop :=
  match r with
  | UB k => k = NullDeref /\ starved h
  | Ok (p, h') => ext h h' /\
      ((p = 0 /\ hold (hp_next h) h' [] /\ (t = None \/ refused h h')) \/
       (exists kvs F, t = Some kvs /\ klist h' p kvs F /\ hold (hp_next h) h' F))
  end.

(** Releasing everything on the way out. *)
Lemma free_all : forall h0 h kv items F t, ext h0 h -> klist h kv items F -> hold (hp_next h0) h F -> t = None \/ refused h0 h ->
  lists h0 (obind (free_keyvalue_list h kv) (fun h => Ok (0, h))) t.
Proof.
  intros h0 h kv items F t E K H Q. destruct (free_klist h kv items F (hold_wf _ _ _ H) K) as (h' & Ef & R & W' & Hn & Ho). rewrite Ef. cbn [obind lists].
  assert (E' : ext h0 h') by (eapply ext_released; [exact E| |exact R|exact W'|exact Hn|exact Ho]; intros a Ha; apply (hold_in _ _ _ _ H Ha)).
  split; [exact E'|]. left. split; [reflexivity|]. split; [|destruct Q as [Q|Q]; [auto|right; eapply refused_later; [exact Q|lia]]].
  eapply hold_released; [rewrite app_nil_r; exact H|exact R|exact W'|exact Hn].
Qed.

Lemma klist_ext : forall h h' kv items F base L, klist h kv items F -> hold base h (F ++ L) -> ext h h' -> klist h' kv items F.
Proof.
  intros h h' kv items F base L K H E. eapply klist_frame; [exact K|]. intros a Ha. eapply ext_live; [exact (hold_wf _ _ _ H)|exact E|]. apply (hold_in _ _ _ a H). apply in_or_app. left. exact Ha.
Qed.
Lemma klist_put : forall h kv items F base L a c, klist h kv items F -> hold base h (F ++ L) -> In a L -> klist (put h a c) kv items F.
Proof.
  intros h kv items F base L a c K (_ & _ & D & _) Ha. eapply klist_frame; [exact K|]. intros b Hb. apply put_other. intros ->. exact (disjoint_of_NoDup _ _ D a Hb Ha).
Qed.

Lemma push_held : forall base h kv items F L key kd value vd, hold base h (F ++ L) -> klist h kv items F -> key <> 0 -> value <> 0 ->
  hp_cell h key = Live (Buf kd) -> stringy kd -> hp_cell h value = Live (Buf vd) -> stringy vd ->
  (hp_oom h (hp_next h) = true /\ exists h', push_keyvalue_list h kv key value = Ok ((-1)%Z, h') /\ hp_next h' = hp_next h + 1 /\ hp_oom h' = hp_oom h /\
     (forall x, hp_cell h' x = hp_cell h x) /\ hold base h' (F ++ L) /\ klist h' kv items F) \/
  ((hp_oom h (hp_next h + 1) = true \/ hp_oom h (hp_next h + 2) = true) /\ push_keyvalue_list h kv key value = UB NullDeref) \/
  (exists h' F', push_keyvalue_list h kv key value = Ok (0%Z, h') /\ hp_next h' = hp_next h + 3 /\ hp_oom h' = hp_oom h /\
     (forall x, x < hp_next h -> ~ In x F -> hp_cell h' x = hp_cell h x) /\ hold base h' (F' ++ L) /\ klist h' kv (items ++ [(c_string kd, c_string vd)]) F').
Proof.
  intros base h kv items F L key kd value vd H K K0 V0 Ck Sk Cv Sv. pose proof (hold_wf _ _ _ H) as W. pose proof H as (_ & B & D & G & V).
  destruct (push_klist h kv items F key _ value _ W K K0 V0 Ck Sk Cv Sv) as [(Oo & h3 & Ep & W3 & Hn3 & Ho3 & Cx)|[(Oo & Ep)|(Oo & h3 & F' & Ep & W3 & Hn3 & Ho3 & K3 & P & Cx)]].
  - left. split; [exact Oo|]. exists h3. split; [exact Ep|]. split; [exact Hn3|]. split; [exact Ho3|]. split; [exact Cx|]. split.
    + eapply hold_same; [exact H|exact W3|lia|intros b _; apply Cx].
    + eapply klist_frame; [exact K|intros b _; apply Cx].
  - right. left. auto.
  - right. right. exists h3, F'. split; [exact Ep|]. split; [exact Hn3|]. split; [exact Ho3|]. split; [intros x Hx Hf; apply Cx; [exact Hf|lia|lia|lia]|]. split; [|exact K3].
    assert (Pp : Permutation (F' ++ L) ([hp_next h; hp_next h + 1; hp_next h + 2] ++ (F ++ L))).
    { rewrite app_assoc. apply Permutation_app_tail. eapply Permutation_trans; [exact P|]. apply Permutation_app_comm. }
    eapply hold_perm; [apply Permutation_sym; exact Pp|]. split; [exact W3|]. split; [lia|]. split; [|split].
    + apply disjoint_app; [|exact D|].
      * constructor; [intros [Q|[Q|[]]]; lia|]. constructor; [intros [Q|[]]; lia|]. constructor; [intros []|constructor].
      * intros b Hb Q. destruct (hold_in _ _ _ b H Q) as (_ & _ & X & _). destruct Hb as [<-|[<-|[<-|[]]]]; lia.
    + intros b Hb. apply in_app_or in Hb. destruct Hb as [[<-|[<-|[<-|[]]]]|Hb]; try lia. apply G. exact Hb.
    + intros b Hb. rewrite in_app_iff. assert (New : In b [hp_next h; hp_next h + 1; hp_next h + 2] -> is_live h3 b).
      { intros Q. eapply klist_live; [exact K3|]. eapply Permutation_in; [apply Permutation_sym; exact P|]. apply in_or_app. right. exact Q. }
      destruct (in_dec N.eq_dec b [hp_next h; hp_next h + 1; hp_next h + 2]) as [Q|Q]; [split; auto|].
      destruct (in_dec N.eq_dec b F) as [Qf|Qf].
      * split; [intros _; right; apply in_or_app; left; exact Qf|]. intros _. eapply klist_live; [exact K3|]. eapply Permutation_in; [apply Permutation_sym; exact P|]. apply in_or_app. left. exact Qf.
      * unfold is_live. rewrite Cx by (try exact Qf; intros ->; apply Q; cbn; auto). fold (is_live h b). rewrite (V b Hb). tauto.
Qed.

Lemma kv_attrs_lists : forall v pl w h0, heap_wf h0 -> in_memory h0 v pl w -> fits w -> forall attrs h kv items F r,
  ext h0 h -> klist h kv items F -> hold (hp_next h0) h F -> voucher_to_keyvalue w attrs items = Ok r ->
  lists h0 (h_kv_attrs v pl attrs h kv) r.
Proof.
  intros v pl w h0 W0 M Fw. induction attrs as [|a rest IH]; intros h kv items F r E K H Er; cbn [voucher_to_keyvalue h_kv_attrs] in *.
  { cbn [lists]. split; [exact E|]. right. exists items, F. split; [congruence|auto]. }
  assert (Mh : in_memory h v pl w) by exact (in_memory_ext _ _ _ _ _ W0 E M). pose proof (hold_wf _ _ _ H) as W.
  rewrite (nonempty_same _ _ _ _ a Mh). cbn [obind]. destruct (is_attr_nonempty w a); cbn [negb]; [|eapply IH; eassumption].
  rewrite escapestr_quote in Er. cbn [obind] in Er. pose proof (escape_text_gives h (attr_name a) W) as G1.
  destruct (h_escape_text h (attr_name a)) as [[key h1]|k1]; cbn [gives obind] in G1 |- *.
  2:{ destruct G1 as [-> G1]. split; [reflexivity|]. destruct E as (_ & Hn & _ & Ho). eapply starved_before; eassumption. }
  destruct G1 as [E1 G1]. pose proof (ext_trans _ _ _ E E1) as E01. destruct G1 as [(-> & H1 & Q)|(ks & Eks & Ck & H1)].
  { cbn [N.eqb]. assert (H01 := hold_grow _ _ _ _ _ H E1 H1). cbn [app] in H01. eapply free_all; [exact E01| |exact H01|].
    - eapply klist_ext; [exact K|rewrite app_nil_r; exact H|exact E1].
    - right. destruct Q as [Q|Q]; [discriminate|]. destruct E as (_ & Hn & _ & Ho). eapply refused_before; eassumption. }
  assert (ks = quote (attr_name a)) as -> by congruence. clear Eks. destruct (name_fine a) as [Zn Ln].
  assert (Zk := quote_free _ Zn). assert (Lk : blen (quote (attr_name a)) < SIZE_MAX) by (rewrite quote_len; unfold SIZE_MAX; lia).
  destruct (hold_in _ _ _ key H1 (or_introl eq_refl)) as (_ & K0 & _). rewrite (proj2 (N.eqb_neq _ _) K0).
  assert (H01 : hold (hp_next h0) h1 (F ++ [key])). { eapply hold_perm; [apply Permutation_app_comm|]. exact (hold_grow _ _ _ _ _ H E1 H1). }
  assert (K1 : klist h1 kv items F) by (eapply klist_ext; [exact K|rewrite app_nil_r; exact H|exact E1]).
  assert (Mh1 : in_memory h1 v pl w) by exact (in_memory_ext _ _ _ _ _ W0 E01 M). pose proof (hold_wf _ _ _ H01) as W1.
  destruct (serialize_attr w a) as [x|k] eqn:Ex; [|discriminate]. cbn [obind] in Er.
  destruct (attr_gives h1 v pl w a x W1 Mh1 Fw Ex) as [G2 Tx].
  destruct (h_serialize_attr h1 v pl a) as [[value h2]|k2]; cbn [gives obind] in G2 |- *.
  2:{ destruct G2 as [-> G2]. split; [reflexivity|]. destruct E01 as (_ & Hn & _ & Ho). eapply starved_before; eassumption. }
  destruct G2 as [E2 G2]. pose proof (ext_trans _ _ _ E01 E2) as E02.
  assert (K2 : klist h2 kv items F) by (eapply klist_ext; [exact K1|exact H01|exact E2]).
  destruct G2 as [(-> & H2 & Q)|(vs & Evs & Cv & H2)].
  { cbn [N.eqb]. assert (H02 := hold_grow _ _ _ _ _ H01 E2 H2). cbn [app] in H02.
    assert (H02' : hold (hp_next h0) h2 (key :: F)) by (eapply hold_perm; [apply (Permutation_app_comm F [key])|exact H02]).
    destruct (hold_free _ _ _ _ H02') as [Ef H03]. rewrite Ef. cbn [obind].
    eapply free_all; [eapply ext_put_held; [exact E02|exact H02'|left; reflexivity]| |exact H03|].
    - eapply klist_put; [exact K2|exact H02|left; reflexivity].
    - destruct Q as [->|Q]; [left; congruence|]. right. destruct E01 as (_ & Hn & _ & Ho). eapply refused_later; [eapply refused_before; [exact Hn|exact Ho|exact Q]|cbn; lia]. }
  subst x. destruct (Tx vs eq_refl) as [Zv Lv]. destruct (hold_in _ _ _ value H2 (or_introl eq_refl)) as (_ & V0 & _). rewrite (proj2 (N.eqb_neq _ _) V0).
  assert (H02 : hold (hp_next h0) h2 (F ++ [key; value])).
  { eapply hold_perm; [|exact (hold_grow _ _ _ _ _ H01 E2 H2)]. cbn [app]. change (value :: F ++ [key]) with ([value] ++ (F ++ [key])).
    eapply Permutation_trans; [apply Permutation_app_comm|]. rewrite <- app_assoc. apply Permutation_refl. }
  pose proof (hold_wf _ _ _ H02) as W2. destruct (stringy_text _ Zk Lk) as [Sk Ek]. destruct (stringy_text _ Zv Lv) as [Sv Ev].
  assert (Ck2 : hp_cell h2 key = Live (Buf (quote (attr_name a) ++ [0]))) by (rewrite (ext_live h1 h2 key W1 E2 (ex_intro _ _ Ck)); exact Ck).
  pose proof E02 as (_ & Hn2 & _ & Ho2).
  destruct (push_held _ h2 kv items F [key; value] key _ value _ H02 K2 K0 V0 Ck2 Sk Cv Sv) as [(Oo & h3 & Ep & Hn3 & Ho3 & Cx & H03 & K3)|[(Oo & Ep)|(h3 & F' & Ep & Hn3 & Ho3 & Cx & H03 & K3)]];
    rewrite Ep; cbn [obind fst snd].
  - assert (E03 : ext h0 h3). { destruct E02 as (_ & _ & Kp & _). split; [exact (hold_wf _ _ _ H03)|]. split; [lia|]. split; [intros b Hb; rewrite Cx; apply Kp; exact Hb|congruence]. }
    assert (H03' : hold (hp_next h0) h3 (key :: value :: F)) by (eapply hold_perm; [apply (Permutation_app_comm F [key; value])|exact H03]).
    destruct (hold_free _ _ _ _ H03') as [Ef H04]. rewrite Ef. cbn [obind]. destruct (hold_free _ _ _ _ H04) as [Ef2 H05]. rewrite Ef2. cbn [obind].
    assert (E04 : ext h0 (put h3 key Freed)) by (eapply ext_put_held; [exact E03|exact H03'|left; reflexivity]).
    change ((-1 <? 0)%Z) with true. cbv iota. eapply free_all; [eapply ext_put_held; [exact E04|exact H04|left; reflexivity]| |exact H05|].
    + eapply klist_put; [|eapply hold_perm; [apply Permutation_cons_append|exact H04]|left; reflexivity]. eapply klist_put; [exact K3|exact H03|left; reflexivity].
    + right. exists (hp_next h2). split; [cbn; lia|]. congruence.
  - split; [reflexivity|]. destruct Oo as [Oo|Oo]; (eapply starved_at; [|rewrite <- Ho2; exact Oo]); lia.
  - assert (E03 : ext h0 h3).
    { destruct E02 as (_ & _ & Kp & _). split; [exact (hold_wf _ _ _ H03)|]. split; [lia|]. split; [|congruence]. intros b Hb. rewrite Cx; [apply Kp; exact Hb|lia|].
      intros Q. destruct (hold_in _ _ _ b H Q) as (_ & _ & _ & X). lia. }
    assert (H03' : hold (hp_next h0) h3 (key :: value :: F')) by (eapply hold_perm; [apply (Permutation_app_comm F' [key; value])|exact H03]).
    destruct (hold_free _ _ _ _ H03') as [Ef H04]. rewrite Ef. cbn [obind]. destruct (hold_free _ _ _ _ H04) as [Ef2 H05]. rewrite Ef2. cbn [obind].
    assert (E04 : ext h0 (put h3 key Freed)) by (eapply ext_put_held; [exact E03|exact H03'|left; reflexivity]).
    change ((0 <? 0)%Z) with false. cbv iota. eapply IH; [eapply ext_put_held; [exact E04|exact H04|left; reflexivity]| |exact H05|].
    + eapply klist_put; [|eapply hold_perm; [apply Permutation_cons_append|exact H04]|left; reflexivity]. eapply klist_put; [exact K3|exact H03|left; reflexivity].
    + rewrite Ek, Ev. exact Er.
Qed.

Lemma to_keyvalue_lists : forall h v pl w r, heap_wf h -> in_memory h v pl w -> fits w -> voucher_to_keyvalue w all_attrs [] = Ok r ->
  lists h (h_voucher_to_keyvalue h v pl) r.
Proof.
  intros h v pl w r W M Fw Er. unfold h_voucher_to_keyvalue. destruct (init_klist h W) as (a & h1 & E & W1 & Hn & Ho & [(A & Oo & Cx)|(A & A0 & Oo & K & Cx)]).
  - rewrite E. cbn [obind]. subst a. cbn [N.eqb lists]. split; [split; [exact W1|]; split; [lia|]; split; [intros b _; apply Cx|exact Ho]|]. left. split; [reflexivity|]. split.
    + eapply hold_same; [apply hold_init; exact W|exact W1|lia|intros b _; apply Cx].
    + right. apply refused_here; [exact Oo|lia].
  - rewrite E. cbn [obind]. rewrite (proj2 (N.eqb_neq _ _) A0). eapply kv_attrs_lists; try eassumption.
    + split; [exact W1|]. split; [lia|]. split; [intros b Hb; apply Cx; lia|exact Ho].
    + split; [exact W1|]. split; [lia|]. split; [constructor; [intros []|constructor]|]. split; [intros b [<-|[]]; lia|].
      intros b Hb. split.
      * intros L. pose proof (live_below _ _ W1 L). left. lia.
      * intros [<-|[]]. eapply klist_live; [exact K|]. apply (klist_head _ _ _ _ K).
Qed.

(** *** The JSON text *)
Lemma klist_els : forall h kv items F, heap_wf h -> klist h kv items F -> exists els,
  dl_list_for_each kv_off h kv = Ok els /\ dl_list_len kv_off h kv = Ok (N.of_nat (List.length items)) /\
  Forall2 (fun el it => exists k v, get_ptr h el 0 = Ok k /\ get_ptr h el 1 = Ok v /\ heap_string h k = Ok (fst it) /\ heap_string h v = Ok (snd it)) els items.
Proof.
  intros h kv items F W (ns & L & It & _). exists (map fst ns). split; [exact (for_each_ok kv_off kv_owned h kv kpre ns W L)|]. split.
  - rewrite (len_ok kv_off kv_owned h kv kpre ns W L). do 2 f_equal. apply (Forall2_len _ _ _ _ _ It).
  - assert (Z : forall l its, (forall n, In n l -> In n ns) -> Forall2 (kitem h) l its ->
      Forall2 (fun el it => exists k v, get_ptr h el 0 = Ok k /\ get_ptr h el 1 = Ok v /\ heap_string h k = Ok (fst it) /\ heap_string h v = Ok (snd it)) (map fst l) its).
    { intros l its Sub X. induction X as [|[a pre] it l its X _ IH]; [constructor|]. cbn [map fst]. constructor; [|apply IH; intros n Hn; apply Sub; right; exact Hn].
      assert (Hin : In (a, pre) ns) by (apply Sub; left; reflexivity).
      destruct X as (k & v & kd & vd & K0 & V0 & Hs & Hk & Hv & Zk & Zv & ->). cbn [fst snd] in *. subst pre. destruct L as [[_ [_ [_ [S _]]]] _].
      destruct (seg_cell 2 ns h kv kv a _ S Hin) as [A0 [n [r Hc]]]. unfold node in Hc. cbn [app] in Hc. exists k, v.
      split; [eapply get_ptr_at; [exact A0|exact Hc|reflexivity]|]. split; [eapply get_ptr_at; [exact A0|exact Hc|reflexivity]|].
      split; [apply heap_string_exact; assumption|apply heap_string_exact; assumption]. }
    apply Z; [auto|exact It].
Qed.

(** realloc and strcat of a text that just fits. *)
Lemma grown : forall js c, firstn (N.to_nat (blen js + 1 + blen c)) ((js ++ [0]) ++ repeat 255 (N.to_nat (blen js + 1 + blen c))) = js ++ 0 :: repeat 255 (List.length c).
Proof.
  intros js c. rewrite firstn_app. rewrite firstn_all2 by (rewrite app_length; unfold blen; cbn [List.length]; lia). rewrite <- app_assoc. f_equal. cbn [app]. f_equal.
  replace (N.to_nat (blen js + 1 + blen c)) with (List.length c + (List.length js + 1))%nat at 2 by (unfold blen; lia). rewrite repeat_app, firstn_app.
  rewrite firstn_all2 by (rewrite repeat_length, app_length; unfold blen; cbn [List.length]; lia).
  replace (N.to_nat (blen js + 1 + blen c) - List.length (js ++ [0%N]) - List.length (repeat 255%N (List.length c)))%nat with 0%nat by (rewrite repeat_length, app_length; unfold blen; cbn [List.length]; lia).
  rewrite firstn_O, app_nil_r. reflexivity.
Qed.

Lemma strcat_held : forall h0 h q js c, ext h0 h -> hold (hp_next h0) h [q] -> hp_cell h q = Live (Buf (js ++ 0 :: repeat 255 (List.length c))) -> ~ In 0 js ->
  exists h'', h_strcat h q c = Ok h'' /\ ext h0 h'' /\ hp_next h'' = hp_next h /\ hold (hp_next h0) h'' [q] /\ hp_cell h'' q = Live (Buf ((js ++ c) ++ [0])).
Proof.
  intros h0 h q js c E H C Z. destruct (hold_in _ _ _ q H (or_introl eq_refl)) as (_ & Q0 & Ql & Qb). unfold h_strcat. rewrite (heap_string_plain _ _ _ _ Q0 C Z). cbn [obind].
  unfold load_buf. rewrite (proj2 (N.eqb_neq _ _) Q0), C. cbn [obind].
  rewrite strcat_ok by (rewrite blen_app; unfold blen; cbn [List.length]; rewrite repeat_length; lia). cbn [obind].
  rewrite skipn_all2 by (rewrite !app_length; cbn [List.length]; rewrite repeat_length; lia). rewrite app_nil_r.
  eexists. split; [reflexivity|]. split; [eapply ext_put_held; [exact E|exact H|left; reflexivity]|]. split; [reflexivity|]. split; [apply hold_put; [exact H|left; reflexivity]|apply put_same].
Qed.

Lemma append_ok : forall h0 h json js c, ext h0 h -> hold (hp_next h0) h [json] -> hp_cell h json = Live (Buf (js ++ [0])) -> ~ In 0 js ->
  exists q h', h_realloc h json (blen js + 1 + blen c) = Ok (q, h') /\ ext h0 h' /\ hp_next h' = hp_next h + 1 /\
    ((q = 0 /\ hp_oom h (hp_next h) = true /\ hold (hp_next h0) h' [json] /\ (forall x, hp_cell h' x = hp_cell h x)) \/
     (q <> 0 /\ hold (hp_next h0) h' [q] /\ hp_cell h' q = Live (Buf (js ++ 0 :: repeat 255 (List.length c))))).
Proof.
  intros h0 h json js c E H C Z. destruct (hold_in _ _ _ json H (or_introl eq_refl)) as (_ & J0 & Jl & Jb).
  unfold h_realloc. unfold load_buf at 1. rewrite (proj2 (N.eqb_neq _ _) J0), C. cbn [obind]. rewrite grown.
  destruct (hold_alloc _ h [json] (Buf (js ++ 0 :: repeat 255 (List.length c))) H) as (a & h' & Ea & X & Hn & [(A & Oo & Cx & H')|(A & A0 & _ & Ca & Cx & H')]); rewrite Ea.
  - subst a. cbn [N.eqb]. exists 0, h'. split; [reflexivity|]. split; [exact (ext_trans _ _ _ E X)|]. split; [exact Hn|]. left. auto.
  - rewrite (proj2 (N.eqb_neq _ _) A0). assert (H1 : hold (hp_next h0) h' [json; a]) by (eapply hold_perm; [apply perm_swap|exact H']).
    destruct (hold_free _ _ _ _ H1) as [Ef H2]. rewrite Ef. cbn [obind]. exists a, (put h' json Freed). split; [reflexivity|].
    split; [eapply ext_put_held; [exact (ext_trans _ _ _ E X)|exact H1|left; reflexivity]|]. split; [exact Hn|]. right. split; [exact A0|]. split; [exact H2|]. rewrite put_other by lia. exact Ca.
Qed.

(** The text that the loop appends. *)
Fixpoint pieces (count idx : N) (items : list (bytes * bytes)) : bytes :=
  match items with
  | [] => []
  | it :: rest => (piece it ++ if idx <? count - 1 then [44] else []) ++ pieces count (idx + 1) rest
  end.
Lemma kv_loop_pieces : forall count items idx js, kv_loop count idx js (blen js + 1) items = Ok (js ++ pieces count idx items, blen (js ++ pieces count idx items) + 1).
Proof.
  intros count. induction items as [|[k v] rest IH]; intros idx js; cbn [kv_loop pieces].
  - rewrite app_nil_r. reflexivity.
  - rewrite concat_ok. cbn [obind]. set (c := piece (k, v) ++ (if idx <? count - 1 then [44] else [])). rewrite strcat_ok by lia. cbn [obind].
    replace (blen js + 1 + blen c) with (blen (js ++ c) + 1) by (rewrite blen_app; lia). rewrite IH. rewrite <- !app_assoc. reflexivity.
Qed.

Lemma string_free_app : forall k v b, ~ In 0 k -> ~ In 0 v -> ~ In 0 (piece (k, v) ++ (if b : bool then [44] else [])).
Proof.
  intros k v b Hk Hv Q. unfold piece in Q. cbn [fst snd] in Q. rewrite !in_app_iff in Q. destruct Q as [[Q|[Q|Q]]|Q]; [exact (Hk Q)| |exact (Hv Q)|].
  - change (s2b ":") with [58] in Q. destruct Q as [Q|[]]. discriminate.
  - destruct b; [destruct Q as [Q|[]]; discriminate|destruct Q].
Qed.

Lemma json_loop_ok : forall h0 count els items, heap_wf h0 ->
  Forall2 (fun el it => exists k v, get_ptr h0 el 0 = Ok k /\ get_ptr h0 el 1 = Ok v /\ heap_string h0 k = Ok (fst it) /\ heap_string h0 v = Ok (snd it)) els items ->
  forall idx h json js, ext h0 h -> hold (hp_next h0) h [json] -> hp_cell h json = Live (Buf (js ++ [0])) -> ~ In 0 js ->
  exists j n h', h_json_loop count idx h json (blen js + 1) els = Ok (j, n, h') /\ ext h0 h' /\
    ((j = 0 /\ hold (hp_next h0) h' [] /\ refused h0 h') \/
     (j <> 0 /\ hold (hp_next h0) h' [j] /\ n = blen (js ++ pieces count idx items) + 1 /\ ~ In 0 (js ++ pieces count idx items) /\ hp_cell h' j = Live (Buf ((js ++ pieces count idx items) ++ [0])))).
Proof.
  intros h0 count els items W0 X. induction X as [|el [ks vs] els items (k & v & Gk & Gv & Sk & Sv) _ IH]; intros idx h json js E H C Z; cbn [h_json_loop pieces].
  - exists json, (blen js + 1), h. split; [reflexivity|]. split; [exact E|]. right. rewrite app_nil_r. destruct (hold_in _ _ _ json H (or_introl eq_refl)) as (_ & J0 & _). auto.
  - cbn [fst snd] in *. rewrite (ext_get_ptr _ _ _ _ _ W0 E Gk). cbn [obind]. rewrite (ext_get_ptr _ _ _ _ _ W0 E Gv). cbn [obind].
    unfold h_concatenate. rewrite (ext_string _ _ _ _ W0 E Sk). cbn [obind]. rewrite (ext_string _ _ _ _ W0 E Sv). cbn [obind]. rewrite concat_ok. cbn [obind].
    pose proof (string_free_app ks vs (idx <? count - 1) (heap_string_free _ _ _ Sk) (heap_string_free _ _ _ Sv)) as Zc.
    set (c := piece (ks, vs) ++ (if idx <? count - 1 then [44] else [])) in *. unfold h_new_text.
    pose proof E as (_ & Hn & _ & Ho).
    destruct (hold_alloc _ h [json] (Buf (c ++ [0])) H) as (a & h1 & Ea & X1 & Hn1 & [(A & Oo & _ & H1)|(A & A0 & _ & Ca & Cx & H1)]); rewrite Ea; pose proof (ext_trans _ _ _ E X1) as E1.
    + subst a. cbn [N.eqb]. destruct (hold_free _ _ _ _ H1) as [Ef H2]. rewrite Ef. cbn [obind]. exists 0, (blen js + 1), (put h1 json Freed). split; [reflexivity|].
      split; [eapply ext_put_held; [exact E1|exact H1|left; reflexivity]|]. left. split; [reflexivity|]. split; [exact H2|]. exists (hp_next h). split; [cbn; lia|congruence].
    + rewrite (proj2 (N.eqb_neq _ _) A0). rewrite (heap_string_plain0 h1 a c A0 Ca Zc). cbn [obind].
      destruct (hold_in _ _ _ json H (or_introl eq_refl)) as (_ & J0 & Jl & Jb).
      assert (C1 : hp_cell h1 json = Live (Buf (js ++ [0]))) by (rewrite Cx by lia; exact C).
      (* the block of the new piece is set aside *)
      assert (Ab : hold (hp_next h0) h1 [json; a]) by (eapply hold_perm; [apply perm_swap|exact H1]).
      unfold h_realloc. unfold load_buf at 1. rewrite (proj2 (N.eqb_neq _ _) J0), C1. cbn [obind]. rewrite grown.
      destruct (hold_alloc _ h1 [json; a] (Buf (js ++ 0 :: repeat 255 (List.length c))) Ab) as (q & h2 & Eq & X2 & Hn2 & [(Q & Oo & Cy & H2)|(Q & Q0 & _ & Cq & Cy & H2)]); rewrite Eq; pose proof (ext_trans _ _ _ E1 X2) as E2.
      * subst q. cbn [N.eqb obind]. assert (H2' : hold (hp_next h0) h2 [a; json]) by (eapply hold_perm; [apply perm_swap|exact H2]).
        destruct (hold_free _ _ _ _ H2') as [Ef H3]. rewrite Ef. cbn [obind]. destruct (hold_free _ _ _ _ H3) as [Ef2 H4]. rewrite Ef2. cbn [obind].
        eexists 0, _, _. split; [reflexivity|]. split; [eapply ext_put_held; [eapply ext_put_held; [exact E2|exact H2'|left; reflexivity]|exact H3|left; reflexivity]|].
        left. split; [reflexivity|]. split; [exact H4|]. exists (hp_next h1). split; [cbn; lia|]. destruct E1 as (_ & _ & _ & Ho1). congruence.
      * rewrite (proj2 (N.eqb_neq _ _) Q0). assert (H2' : hold (hp_next h0) h2 [json; q; a]) by (eapply hold_perm; [apply perm_swap|exact H2]).
        destruct (hold_free _ _ _ _ H2') as [Ef H3]. rewrite Ef. cbn [obind]. rewrite (proj2 (N.eqb_neq _ _) Q0).
        pose proof (ext_put_held _ _ _ json Freed E2 H2' (or_introl eq_refl)) as E3. remember (put h2 json Freed) as h3 eqn:Eh3.
        assert (Cq3 : hp_cell h3 q = Live (Buf (js ++ 0 :: repeat 255 (List.length c)))) by (rewrite Eh3, put_other by lia; exact Cq).
        unfold h_strcat. rewrite (heap_string_plain _ _ _ _ Q0 Cq3 Z). cbn [obind]. unfold load_buf. rewrite (proj2 (N.eqb_neq _ _) Q0), Cq3. cbn [obind].
        rewrite strcat_ok by (rewrite blen_app; unfold blen; cbn [List.length]; rewrite repeat_length; lia). cbn [obind].
        rewrite (@skipn_all2 _ _ (js ++ 0 :: repeat 255 (List.length c))) by (rewrite !app_length; cbn [List.length]; rewrite repeat_length; lia). rewrite app_nil_r.
        pose proof (hold_put _ _ _ q (Buf ((js ++ c) ++ [0])) H3 (or_introl eq_refl)) as H4.
        pose proof (ext_put_held _ _ _ q (Live (Buf ((js ++ c) ++ [0]))) E3 H3 (or_introl eq_refl)) as E4.
        assert (H4' : hold (hp_next h0) (put h3 q (Live (Buf ((js ++ c) ++ [0])))) [a; q]) by (eapply hold_perm; [apply perm_swap|exact H4]).
        destruct (hold_free _ _ _ _ H4') as [Ef2 H5]. rewrite Ef2. cbn [obind].
        pose proof (ext_put_held _ _ _ a Freed E4 H4' (or_introl eq_refl)) as E5.
        replace (blen js + 1 + blen c) with (blen (js ++ c) + 1) by (rewrite blen_app; lia).
        destruct (IH (idx + 1) (put (put h3 q (Live (Buf ((js ++ c) ++ [0])))) a Freed) q (js ++ c)) as (j & n & h' & R1 & R2 & R3).
        -- exact E5.
        -- exact H5.
        -- rewrite put_other by (destruct H4' as (_ & _ & D & _); apply NoDup_cons_iff in D; destruct D as [D _]; intros ->; apply D; left; reflexivity). apply put_same.
        -- intros F. apply in_app_or in F. destruct F as [F|F]; [exact (Z F)|exact (Zc F)].
        -- exists j, n, h'. split; [exact R1|]. split; [exact R2|]. rewrite <- !app_assoc in R3. rewrite <- !app_assoc. exact R3.
Qed.

Lemma keyvalue2json_gives : forall h kv items F x, heap_wf h -> klist h kv items F -> serialize_keyvalue2json (Some items) = Ok x -> gives h (h_keyvalue2json h kv) x.
Proof.
  intros h kv items F x W K Ex. destruct (klist_head _ _ _ _ K) as [_ K0]. destruct (klist_els h kv items F W K) as (els & Ee & El & Fe).
  unfold h_keyvalue2json. rewrite (proj2 (N.eqb_neq _ _) K0), El. cbn [obind]. unfold serialize_keyvalue2json in Ex.
  destruct (N.of_nat (List.length items) mod 4294967296 =? 0).
  { assert (x = None) as -> by congruence. apply nothing_gives. exact W. }
  rewrite strcat_ok in Ex by (vm_compute; discriminate). cbn [obind] in Ex. change ([] ++ [123]) with [123] in Ex. rewrite kv_loop_pieces in Ex. cbn [obind] in Ex.
  rewrite strcat_ok in Ex by (unfold blen; cbn [List.length]; lia). cbn [obind] in Ex.
  set (count := N.of_nat (List.length items) mod 4294967296) in *. set (t := [123] ++ pieces count 0 items) in *. assert (x = Some (t ++ [125])) as -> by (symmetry; exact (f_equal (fun o => match o with Ok y => y | UB _ => None end) Ex)). clear Ex.
  destruct (hold_alloc _ h [] (Buf [0; 0]) (hold_init h W)) as (a & h1 & Ea & E1 & Hn1 & [(A & Oo & _ & H1)|(A & A0 & _ & Ca & Cx & H1)]); rewrite Ea.
  { subst a. cbn [N.eqb gives]. split; [exact E1|]. left. split; [reflexivity|]. split; [exact H1|]. right. apply refused_here; [exact Oo|lia]. }
  rewrite (proj2 (N.eqb_neq _ _) A0).
  assert (h_strcat h1 a [123] = Ok (put h1 a (Live (Buf ([123] ++ [0]))))) as ->.
  { unfold h_strcat. rewrite (heap_string_plain h1 a [] [0] A0 Ca) by (intros []). cbn [obind]. unfold load_buf. rewrite (proj2 (N.eqb_neq _ _) A0), Ca. cbn [obind]. reflexivity. }
  cbn [obind]. pose proof (hold_put _ _ _ a (Buf ([123] ++ [0])) H1 (or_introl eq_refl)) as H2. pose proof (ext_put_held _ _ _ a (Live (Buf ([123] ++ [0]))) E1 H1 (or_introl eq_refl)) as E2.
  assert (C2 : hp_cell (put h1 a (Live (Buf ([123] ++ [0])))) a = Live (Buf ([123] ++ [0]))) by apply put_same. remember (put h1 a (Live (Buf ([123] ++ [0])))) as h2 eqn:Eh2. clear Eh2.
  assert (Z1 : ~ In 0 [123]) by (intros [Q|[]]; discriminate). rewrite (heap_string_plain0 h2 a [123] A0 C2 Z1). cbn [obind].
  rewrite (ext_for_each _ _ _ _ _ W E2 Ee). cbn [obind].
  destruct (json_loop_ok h count els items W Fe 0 h2 a [123] E2 H2 C2 Z1) as (j & n & h3 & R1 & E3 & R3). rewrite R1. cbn [obind]. fold t in R3.
  destruct R3 as [(-> & H3 & Q)|(J0 & H3 & -> & Zt & C3)].
  { cbn [N.eqb gives]. split; [exact E3|]. left. auto. }
  rewrite (proj2 (N.eqb_neq _ _) J0). destruct (append_ok h h3 j t [125] E3 H3 C3 Zt) as (q & h4 & R4 & E4 & Hn4 & D). change (blen [125]) with 1 in R4. rewrite R4. cbn [obind].
  destruct D as [(-> & Oo & H4 & _)|(Q0 & H4 & C4)].
  - cbn [N.eqb]. destruct (hold_free _ _ _ _ H4) as [Ef H5]. rewrite Ef. cbn [obind gives]. split; [eapply ext_put_held; [exact E4|exact H4|left; reflexivity]|]. left. split; [reflexivity|]. split; [exact H5|].
    right. exists (hp_next h3). destruct E3 as (_ & ? & _ & Ho3). split; [cbn; lia|congruence].
  - rewrite (proj2 (N.eqb_neq _ _) Q0). destruct (strcat_held h h4 q t [125] E4 H4 C4 Zt) as (h5 & R5 & E5 & _ & H5 & C5). rewrite R5. cbn [obind gives]. split; [exact E5|]. right. exists (t ++ [125]). auto.
Qed.
