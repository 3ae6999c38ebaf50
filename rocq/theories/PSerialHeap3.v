(** Proofs about the memory of the serialisation of a voucher: the whole. *)
From Coq Require Import Permutation.
From Verif Require Import Base PBase MOs MBase64 MSerialize SSerialize PSerialize MVoucher MHeap MArray SHeap SArray PHeap PArray PBlocks PKlist POwn
  MVoucherHeap MSerialHeap SSerialHeap PHold PSerialHeap PSerialHeap2.
Open Scope N_scope.

Lemma klist_free : forall h kv items F, heap_wf h -> klist h kv items F -> Forall (fun it => ~ In 0 (fst it) /\ ~ In 0 (snd it)) items.
Proof.
  intros h kv items F W K. destruct (klist_els h kv items F W K) as (els & _ & _ & X). clear K. induction X as [|el it els items (k & v & _ & _ & Sk & Sv) _ IH]; constructor; [|exact IH].
  split; eapply heap_string_free; eassumption.
Qed.
Lemma json_free : forall (items : list (bytes * bytes)) t, Forall (fun it => ~ In 0 (fst it) /\ ~ In 0 (snd it)) items -> serialize_keyvalue2json (Some items) = Ok (Some t) -> ~ In 0 t.
Proof.
  intros items t X E. unfold serialize_keyvalue2json in E. cbv zeta in E. destruct (N.of_nat (List.length items) mod 4294967296 =? 0) eqn:Ez; [discriminate E|].
  rewrite strcat_ok in E by (vm_compute; discriminate). cbn [obind] in E. change ([] ++ [123]) with [123] in E. rewrite kv_loop_pieces in E. cbn [obind] in E.
  rewrite strcat_ok in E by (unfold blen; cbn [List.length]; lia). cbn [obind] in E. set (count := N.of_nat (List.length items) mod 4294967296) in *. clearbody count.
  assert (Z : forall idx, ~ In 0 (pieces count idx items)).
  { clear E. induction X as [|[k v] items [Zk Zv] _ IH]; intros idx Q; cbn [pieces] in Q; [exact Q|]. apply in_app_or in Q. destruct Q as [Q|Q]; [|exact (IH _ Q)]. exact (string_free_app k v _ Zk Zv Q). }
  assert (t = ([123] ++ pieces count 0 items) ++ [125]) as -> by (injection E; auto). intros Q. rewrite !in_app_iff in Q.
  destruct Q as [[[Q|[]]|Q]|[Q|[]]]; [discriminate|exact (Z _ Q)|discriminate].
Qed.

(** The text of a list that is then released. *)
Lemma json_then_free : forall h h1 kv items F x, ext h h1 -> klist h1 kv items F -> hold (hp_next h) h1 F -> serialize_keyvalue2json (Some items) = Ok x ->
  gives h (obind (h_keyvalue2json h1 kv) (fun r => let (json, h) := r in obind (free_keyvalue_list h kv) (fun h => Ok (json, h)))) x.
Proof.
  intros h h1 kv items F x E K H Ex. pose proof (hold_wf _ _ _ H) as W1. pose proof (keyvalue2json_gives h1 kv items F x W1 K Ex) as G. pose proof E as (_ & Hn & _ & Ho).
  destruct (h_keyvalue2json h1 kv) as [[p h2]|k]; cbn [gives obind] in G |- *.
  2:{ destruct G as [-> G]. split; [reflexivity|]. eapply starved_before; eassumption. }
  destruct G as [E2 G]. pose proof (ext_trans _ _ _ E E2) as E02. pose proof E2 as (W2 & Hn2 & _ & Ho2).
  assert (K2 : klist h2 kv items F) by (eapply klist_ext; [exact K|rewrite app_nil_r; exact H|exact E2]).
  destruct (free_klist h2 kv items F W2 K2) as (h3 & Ef & R & W3 & Hn3 & Ho3). rewrite Ef. cbn [obind gives].
  assert (E03 : ext h h3) by (eapply ext_released; [exact E02| |exact R|exact W3|exact Hn3|exact Ho3]; intros a Ha; apply (hold_in _ _ _ _ H Ha)).
  split; [exact E03|]. destruct G as [(P0 & H2 & Q)|(s & Es & C & H2)]; pose proof (hold_grow _ _ _ _ _ H E2 H2) as H02; cbn [app] in H02.
  - left. split; [exact P0|]. split; [eapply hold_released; [rewrite app_nil_r; exact H02|exact R|exact W3|exact Hn3]|].
    destruct Q as [Q|Q]; [auto|]. right. eapply refused_later; [eapply refused_before; [exact Hn|exact Ho|exact Q]|lia].
  - right. exists s. split; [exact Es|]. assert (H02' : hold (hp_next h) h2 (F ++ [p])) by (eapply hold_perm; [apply (Permutation_app_comm [p] F)|exact H02]). split.
    + destruct R as [_ R]. rewrite R; [exact C|]. intros Q. destruct H02' as (_ & _ & D & _). apply (disjoint_of_NoDup _ _ D p Q). left. reflexivity.
    + eapply hold_released; [exact H02'|exact R|exact W3|exact Hn3].
Qed.

Lemma child_gives : forall h v pl w x, heap_wf h -> in_memory h v pl w -> fits w -> serialize_child_voucher w = Ok x ->
  gives h (h_serialize_child h v pl) x /\ (forall p h' s, h_serialize_child h v pl = Ok (p, h') -> p <> 0 -> x = Some s -> ~ In 0 s).
Proof.
  intros h v pl w x W M Fw Ex. unfold serialize_child_voucher in Ex. destruct (voucher_to_keyvalue w all_attrs []) as [r|k] eqn:Er; [|discriminate]. cbn [obind] in Ex.
  pose proof (to_keyvalue_lists h v pl w r W M Fw Er) as G. unfold h_serialize_child.
  destruct (h_voucher_to_keyvalue h v pl) as [[kv h1]|k]; cbn [lists obind] in G |- *; [|split; [exact G|intros; discriminate]].
  destruct G as [E G]. destruct G as [(-> & H & Q)|(kvs & F & -> & K & H)].
  - cbn [N.eqb gives]. split; [|intros p h' s [= <- _] P0; congruence]. split; [exact E|]. left. split; [reflexivity|]. split; [exact H|]. destruct Q as [->|Q]; [left; congruence|auto].
  - destruct (klist_head _ _ _ _ K) as [_ K0]. rewrite (proj2 (N.eqb_neq _ _) K0). split; [eapply json_then_free; eassumption|].
    intros p h' s _ _ ->. eapply json_free; [eapply klist_free; [exact (hold_wf _ _ _ H)|exact K]|exact Ex].
Qed.

Lemma root_fine : ~ In 0 root_name /\ blen root_name < 100.
Proof. split; [intros Q; cbn in Q; repeat (destruct Q as [Q|Q]; [discriminate|]); exact Q|vm_compute; reflexivity]. Qed.

Lemma serialize_gives : forall h v pl w r, heap_wf h -> in_memory h v pl w -> fits w -> serialize_voucher (Some w) = Ok r ->
  gives h (h_serialize_voucher h v pl) r.
Proof.
  intros h v pl w r W M Fw Er. pose proof M as (V0 & _). unfold h_serialize_voucher. rewrite (proj2 (N.eqb_neq _ _) V0).
  pose proof Fw as (_ & _ & Ft). specialize (Ft). pose proof Er as Er0. unfold serialize_voucher in Er.
  destruct (serialize_child_voucher w) as [x|k] eqn:Ex; [|discriminate]. cbn [obind] in Er.
  destruct (child_gives h v pl w x W M Fw Ex) as [G Zx].
  destruct (h_serialize_child h v pl) as [[child h1]|k]; cbn [gives obind] in G |- *; [|exact G].
  destruct G as [E1 G]. destruct G as [(-> & H1 & Q)|(cs & -> & Cc & H1)].
  { cbn [N.eqb gives]. split; [exact E1|]. left. split; [reflexivity|]. split; [exact H1|]. destruct Q as [->|Q]; [left; congruence|auto]. }
  destruct (hold_in _ _ _ child H1 (or_introl eq_refl)) as (_ & C0 & Cl & _). rewrite (proj2 (N.eqb_neq _ _) C0). specialize (Zx _ _ cs eq_refl C0 eq_refl).
  rewrite escapestr_quote in Er. cbn [obind] in Er. destruct root_fine as [Zr Lr].
  assert (Ejson : serialize_keyvalue2json (Some [(quote root_name, cs)]) = Ok (Some (kv_json [(quote root_name, cs)]))) by (apply keyvalue2json_ok; [discriminate|vm_compute; reflexivity]).
  assert (Lc : blen cs < SIZE_MAX).
  { specialize (Ft (kv_json [(quote root_name, cs)])). rewrite Er0, <- Er, Ejson in Ft. specialize (Ft eq_refl). unfold kv_json in Ft. cbn [map join fst snd] in Ft. rewrite !blen_app in Ft. lia. }
  pose proof E1 as (W1 & Hn1 & _ & Ho1).
  destruct (init_klist h1 W1) as (kv & h2 & Ei & W2 & Hn2 & Ho2 & [(A & Oo & Cx)|(A & A0 & _ & K & Cx)]); rewrite Ei; cbn [obind].
  { subst kv. cbn [N.eqb]. assert (H2 : hold (hp_next h) h2 [child]) by (eapply hold_same; [exact H1|exact W2|lia|intros b _; apply Cx]).
    assert (E2 : ext h h2) by (eapply ext_trans; [exact E1|]; split; [exact W2|]; split; [lia|]; split; [intros b _; apply Cx|exact Ho2]).
    destruct (hold_free _ _ _ _ H2) as [Ef H3]. rewrite Ef. cbn [obind gives]. split; [eapply ext_put_held; [exact E2|exact H2|left; reflexivity]|]. left. split; [reflexivity|]. split; [exact H3|].
    right. exists (hp_next h1). split; [cbn; lia|congruence]. }
  rewrite (proj2 (N.eqb_neq _ _) A0).
  assert (E12 : ext h1 h2) by (split; [exact W2|]; split; [lia|]; split; [intros b Hb; apply Cx; lia|exact Ho2]). pose proof (ext_trans _ _ _ E1 E12) as E2.
  assert (H2 : hold (hp_next h) h2 ([kv] ++ [child])).
  { eapply hold_grow; [exact H1|exact E12|]. split; [exact W2|]. split; [lia|]. split; [constructor; [intros []|constructor]|]. split; [intros b [<-|[]]; lia|].
    intros b Hb. split; [intros L; pose proof (live_below _ _ W2 L); left; lia|]. intros [<-|[]]. eapply klist_live; [exact K|]. apply (klist_head _ _ _ _ K). }
  assert (Cc2 : hp_cell h2 child = Live (Buf (cs ++ [0]))) by (rewrite Cx by lia; exact Cc).
  pose proof (escape_text_gives h2 root_name W2) as G. destruct (h_escape_text h2 root_name) as [[key h3]|k]; cbn [gives obind] in G |- *.
  2:{ destruct G as [-> G]. split; [reflexivity|]. destruct E2 as (_ & Hq & _ & Hr). eapply starved_before; eassumption. }
  destruct G as [E23 G]. pose proof (ext_trans _ _ _ E2 E23) as E3. pose proof E3 as (W3 & Hn3 & Kp3 & Ho3).
  assert (K3 : klist h3 kv [] [kv]) by (eapply klist_ext; [exact K|exact H2|exact E23]).
  assert (Cc3 : hp_cell h3 child = Live (Buf (cs ++ [0]))) by (rewrite (ext_live h2 h3 child W2 E23 (ex_intro _ _ Cc2)); exact Cc2).
  assert (Fin : forall h4 items F, ext h h4 -> klist h4 kv items F -> hold (hp_next h) h4 F -> r = None \/ refused h h4 -> gives h (obind (free_keyvalue_list h4 kv) (fun h => Ok (0, h))) r).
  { intros h4 items F E4 K4 H4 Q. destruct (free_klist h4 kv items F (hold_wf _ _ _ H4) K4) as (h5 & Ef & R & W5 & Hn5 & Ho5). rewrite Ef. cbn [obind gives].
    split; [eapply ext_released; [exact E4| |exact R|exact W5|exact Hn5|exact Ho5]; intros a Ha; apply (hold_in _ _ _ _ H4 Ha)|]. left. split; [reflexivity|].
    split; [eapply hold_released; [rewrite app_nil_r; exact H4|exact R|exact W5|exact Hn5]|]. destruct Q as [Q|Q]; [auto|right; eapply refused_later; [exact Q|lia]]. }
  destruct G as [(-> & H3 & Q)|(ks & Eks & Ck & H3)]; pose proof (hold_grow _ _ _ _ _ H2 E23 H3) as H03; cbn [app] in H03.
  - (* no name: nothing is pushed *)
    unfold push_keyvalue_list. rewrite (proj2 (N.eqb_neq _ _) A0). cbn [N.eqb obind fst snd sys_free].
    assert (H03' : hold (hp_next h) h3 [child; kv]) by (eapply hold_perm; [apply perm_swap|exact H03]).
    destruct (hold_free _ _ _ _ H03') as [Ef H4]. rewrite Ef. cbn [obind]. change ((-1 <? 0)%Z) with true. cbv iota.
    eapply Fin; [eapply ext_put_held; [exact E3|exact H03'|left; reflexivity]| |exact H4|].
    + eapply (klist_put _ _ _ _ _ [child]); [exact K3|exact H03|left; reflexivity].
    + right. destruct Q as [Q|Q]; [discriminate|]. destruct E2 as (_ & Hq & _ & Hr). eapply refused_later; [eapply refused_before; [exact Hq|exact Hr|exact Q]|cbn; lia].
  - assert (ks = quote root_name) as -> by congruence. destruct (hold_in _ _ _ key H3 (or_introl eq_refl)) as (_ & Q0 & _).
    destruct (stringy_text _ (quote_free _ Zr)) as [Sk Ek]; [rewrite quote_len; unfold SIZE_MAX; lia|]. destruct (stringy_text _ Zx Lc) as [Sv Ev].
    assert (H03' : hold (hp_next h) h3 ([kv] ++ [key; child])) by (eapply hold_perm; [apply perm_swap|exact H03]).
    destruct (push_held _ h3 kv [] [kv] [key; child] key _ child _ H03' K3 Q0 C0 Ck Sk Cc3 Sv) as [(Oo & h4 & Ep & Hn4 & Ho4 & Cy & H4 & K4)|[(Oo & Ep)|(h4 & F' & Ep & Hn4 & Ho4 & Cy & H4 & K4)]];
      rewrite Ep; cbn [obind fst snd].
    + assert (E4 : ext h h4) by (split; [exact (hold_wf _ _ _ H4)|]; split; [lia|]; split; [intros b Hb; rewrite Cy; apply Kp3; exact Hb|congruence]).
      assert (H4' : hold (hp_next h) h4 [key; child; kv]) by (eapply hold_perm; [apply (Permutation_app_comm [kv] [key; child])|exact H4]).
      destruct (hold_free _ _ _ _ H4') as [Ef H5]. rewrite Ef. cbn [obind]. destruct (hold_free _ _ _ _ H5) as [Ef2 H6]. rewrite Ef2. cbn [obind]. change ((-1 <? 0)%Z) with true. cbv iota.
      eapply Fin; [eapply ext_put_held; [eapply ext_put_held; [exact E4|exact H4'|left; reflexivity]|exact H5|left; reflexivity]| |exact H6|].
      * eapply klist_put; [eapply klist_put; [exact K4|exact H4|left; reflexivity]|eapply (hold_perm _ _ [child; kv]); [apply perm_swap|exact H5]|left; reflexivity].
      * right. exists (hp_next h3). split; [cbn; lia|congruence].
    + split; [reflexivity|]. destruct Oo as [Oo|Oo]; (eapply starved_at; [|rewrite <- Ho3; exact Oo]); lia.
    + assert (E4 : ext h h4).
      { split; [exact (hold_wf _ _ _ H4)|]. split; [lia|]. split; [|congruence]. intros b Hb. rewrite Cy; [apply Kp3; exact Hb|lia|]. intros [<-|[]]. lia. }
      assert (H4' : hold (hp_next h) h4 (key :: child :: F')) by (eapply hold_perm; [apply (Permutation_app_comm F' [key; child])|exact H4]).
      destruct (hold_free _ _ _ _ H4') as [Ef H5]. rewrite Ef. cbn [obind]. destruct (hold_free _ _ _ _ H5) as [Ef2 H6]. rewrite Ef2. cbn [obind]. change ((0 <? 0)%Z) with false. cbv iota.
      eapply json_then_free; [eapply ext_put_held; [eapply ext_put_held; [exact E4|exact H4'|left; reflexivity]|exact H5|left; reflexivity]| |exact H6|].
      * eapply klist_put; [eapply klist_put; [exact K4|exact H4|left; reflexivity]|eapply hold_perm; [apply Permutation_cons_append|exact H5]|left; reflexivity].
      * rewrite Ek, Ev. cbn [app]. exact Er.
Qed.

Lemma serialize_memory : forall h v pl w r, heap_wf h -> in_memory h v pl w -> fits w -> serialize_voucher (Some w) = Ok r ->
  match h_serialize_voucher h v pl with
  | UB k => k = NullDeref /\ starved h
  | Ok (p, h') => new_string h r p h'
  end.
Proof.
  intros h v pl w r W M Fw Er. pose proof (serialize_gives h v pl w r W M Fw Er) as G. destruct (h_serialize_voucher h v pl) as [[p h']|k]; [apply gives_spec; exact G|exact G].
Qed.

Lemma serialize_memory_plenty : forall h v pl w r, heap_wf h -> plenty h -> in_memory h v pl w -> fits w -> serialize_voucher (Some w) = Ok r ->
  exists p h', h_serialize_voucher h v pl = Ok (p, h') /\ kept (hp_next h) h h' /\
    match r with
    | None => p = 0 /\ no_leak (hp_next h) h'
    | Some t => p <> 0 /\ hp_cell h' p = Live (Buf (t ++ [0])) /\ forall a, hp_next h <= a -> (is_live h' a <-> a = p)
    end.
Proof.
  intros h v pl w r W PL M Fw Er. pose proof (serialize_memory h v pl w r W M Fw Er) as G. destruct (h_serialize_voucher h v pl) as [[p h']|k].
  - exists p, h'. split; [reflexivity|]. destruct G as [K G]. split; [exact K|]. destruct G as [(P0 & Q & L)|(t & -> & G)]; [|exact G].
    destruct Q as [->|Q]; [auto|]. exfalso. exact (plenty_not_starved h PL (refused_starved _ _ Q)).
  - destruct G as [_ G]. exfalso. exact (plenty_not_starved h PL G).
Qed.
