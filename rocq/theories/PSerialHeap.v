(** Proofs about the memory of the serialisation of a voucher. *)
From Coq Require Import Permutation.
From Verif Require Import Base PBase MOs MBase64 SBase64 PBase64 MSerialize SSerialize PSerialize MVoucher MHeap MArray SHeap SArray PHeap PArray PBlocks PKlist POwn
  MVoucherHeap MSerialHeap SSerialHeap PHold.
Open Scope N_scope.

Definition quote (s : bytes) : bytes := [34] ++ s ++ [34].

Lemma c_string_plain : forall s r, ~ In 0 s -> c_string (s ++ 0 :: r) = s.
Proof.
  induction s as [|c s IH]; intros r H; [reflexivity|]. cbn [app c_string]. destruct (c =? 0) eqn:E; [exfalso; apply H; left; lia|]. f_equal. apply IH. intros Q. apply H. right. exact Q.
Qed.
Lemma c_string_free : forall d, ~ In 0 (c_string d).
Proof. induction d as [|c d IH]; cbn [c_string]; [intros []|]. destruct (c =? 0) eqn:E; [intros []|]. intros [Q|Q]; [lia|exact (IH Q)]. Qed.
Lemma heap_string_plain : forall h a s r, a <> 0 -> hp_cell h a = Live (Buf (s ++ 0 :: r)) -> ~ In 0 s -> heap_string h a = Ok s.
Proof.
  intros h a s r A0 C Z. rewrite (heap_string_exact h a _ A0 C) by (apply in_or_app; right; left; reflexivity). rewrite c_string_plain by exact Z. reflexivity.
Qed.
Lemma heap_string_plain0 : forall h a s, a <> 0 -> hp_cell h a = Live (Buf (s ++ [0])) -> ~ In 0 s -> heap_string h a = Ok s.
Proof. intros h a s A0 C Z. exact (heap_string_plain h a s [] A0 C Z). Qed.
Lemma quote_free : forall s, ~ In 0 s -> ~ In 0 (quote s).
Proof. intros s H Q. unfold quote in Q. rewrite !in_app_iff in Q. cbn [In] in Q. destruct Q as [[Q|[]]|[Q|[Q|[]]]]; [lia|contradiction|lia]. Qed.
Lemma quote_len : forall s, blen (quote s) = blen s + 2.
Proof. intros s. unfold quote. rewrite !blen_app. unfold blen. cbn [List.length]. lia. Qed.

Lemma escapestr_quote : forall s, serialize_escapestr (Some s) = Ok (Some (quote s)).
Proof. exact escapestr_ok. Qed.

(** *** New texts *)
Lemma new_text_gives : forall h t, heap_wf h -> gives h (Ok (h_new_text h t)) (Some t).
Proof.
  intros h t W. unfold h_new_text. destruct (hold_alloc _ h [] (Buf (t ++ [0])) (hold_init h W)) as (a & h' & E & X & Hn & [(A & Oo & _ & H)|(_ & A0 & _ & C & _ & H)]).
  - rewrite E. cbn [gives]. split; [exact X|]. left. split; [exact A|]. split; [exact H|]. right. apply refused_here; [exact Oo|lia].
  - rewrite E. cbn [gives]. split; [exact X|]. right. exists t. auto.
Qed.
Lemma escape_text_gives : forall h s, heap_wf h -> gives h (h_escape_text h s) (Some (quote s)).
Proof.
  intros h s W. unfold h_escape_text. rewrite sprintf_ok by (rewrite !blen_app; unfold blen; cbn [List.length]; lia). cbn [obind]. apply new_text_gives. exact W.
Qed.
Lemma escapestr_gives : forall h p s, heap_wf h -> p <> 0 -> heap_string h p = Ok s -> gives h (h_escapestr h p) (Some (quote s)).
Proof.
  intros h p s W P0 E. unfold h_escapestr. rewrite (proj2 (N.eqb_neq _ _) P0), E. cbn [obind]. apply escape_text_gives. exact W.
Qed.

Definition then_free (r : outcome (N * heap)) (s : N) : outcome (N * heap) :=
  obind r (fun r => let (e, h) := r in obind (sys_free h s) (fun h => Ok (e, h))).

(** A temporary block that is released at the end. *)
Lemma then_free_gives : forall h h1 s r t, ext h h1 -> hold (hp_next h) h1 [s] -> gives h1 r t -> gives h (then_free r s) t.
Proof.
  intros h h1 s r t E H G. pose proof E as (W1 & Hn & K & Ho). unfold then_free. destruct r as [[e h2]|k]; cbn [gives obind] in *.
  2:{ destruct G as [-> G]. split; [reflexivity|]. eapply starved_before; eassumption. }
  destruct G as [E2 G]. pose proof (ext_trans _ _ _ E E2) as E02.
  destruct G as [(P0 & H2 & Q)|(x & Et & C & H2)].
  - pose proof (hold_grow _ _ _ _ _ H E2 H2) as H3. cbn [app] in H3. destruct (hold_free _ _ _ _ H3) as [F H4]. rewrite F. cbn [obind gives].
    split; [eapply ext_put_held; [exact E02|exact H3|left; reflexivity]|]. left. split; [exact P0|]. split; [exact H4|]. destruct Q as [Q|Q]; [auto|]. right.
    eapply refused_before; [exact Hn|exact Ho|exact Q].
  - pose proof (hold_grow _ _ _ _ _ H E2 H2) as H3. cbn [app] in H3. assert (Ns : e <> s). { destruct H3 as (_ & _ & D & _). apply NoDup_cons_iff in D. destruct D as [D _]. intros ->. apply D. left. reflexivity. }
    assert (H3' : hold (hp_next h) h2 [s; e]) by (eapply hold_perm; [apply perm_swap|exact H3]).
    destruct (hold_free _ _ _ _ H3') as [F H4]. rewrite F. cbn [obind gives].
    split; [eapply ext_put_held; [exact E02|exact H3'|left; reflexivity]|]. right. exists x. split; [exact Et|]. split; [rewrite put_other by exact Ns; exact C|]. exact H4.
Qed.

(** *** Times *)
Lemma repeat_free : forall n, ~ In 0 (repeat 48 n).
Proof. intros n H. apply repeat_spec in H. discriminate. Qed.
Lemma digits_free : forall f n acc, ~ In 0 acc -> ~ In 0 (dec_digits_aux f n acc).
Proof.
  induction f as [|f IH]; intros n acc H; cbn [dec_digits_aux]; [exact H|].
  assert (Q : ~ In 0 ((48 + n mod 10) :: acc)) by (intros [Q|Q]; [lia|exact (H Q)]). destruct (n <? 10); [exact Q|apply IH; exact Q].
Qed.
Lemma strf_free : forall w v, ~ In 0 (strf_num w v).
Proof.
  intros w v. unfold strf_num. assert (D : ~ In 0 (dec_digits (Z.to_N (Z.abs v)))) by (apply digits_free; intros []).
  destruct (v <? 0)%Z; [intros [Q|Q]; [discriminate|]|intros Q]; apply in_app_or in Q; destruct Q as [Q|Q]; try (exact (D Q)); exact (repeat_free _ Q).
Qed.
Lemma time_free : forall t, ~ In 0 (strftime_iso t).
Proof.
  intros t Q. unfold strftime_iso in Q. rewrite !in_app_iff in Q. cbn [In] in Q.
  repeat (destruct Q as [Q|Q]); try contradiction; try discriminate; exact (strf_free _ _ Q).
Qed.

Lemma escape_time_gives : forall h t x, heap_wf h -> escape_serialize_time t = Ok x ->
  gives h (h_escape_time h t) x /\ (forall s, x = Some s -> ~ In 0 s /\ blen s < SIZE_MAX).
Proof.
  intros h t x W Ex. unfold escape_serialize_time in Ex. unfold h_escape_time, h_time2str. pose proof (time_free t) as Z. unfold serialize_time2str in *.
  destruct (blen (strftime_iso t) + 1 <=? 22) eqn:El.
  - rewrite escapestr_quote in Ex. assert (x = Some (quote (strftime_iso t))) as -> by congruence. clear Ex. split.
    2:{ intros s Es. assert (s = quote (strftime_iso t)) as -> by congruence. split; [apply quote_free; exact Z|]. rewrite quote_len. unfold SIZE_MAX. lia. }
    cbn [obind]. pose proof (new_text_gives h (strftime_iso t) W) as G. destruct (h_new_text h (strftime_iso t)) as [s h1]. cbn [gives] in G. destruct G as [E G].
    destruct G as [(-> & H & Q)|(y & Ey & C & H)].
    + cbn [N.eqb gives]. split; [exact E|]. left. split; [reflexivity|]. split; [exact H|]. right. destruct Q as [Q|Q]; [discriminate|exact Q].
    + injection Ey as <-. destruct (hold_in _ _ _ s H (or_introl eq_refl)) as (_ & S0 & _). rewrite (proj2 (N.eqb_neq _ _) S0).
      change (gives h (then_free (h_escapestr h1 s) s) (Some (quote (strftime_iso t)))). eapply then_free_gives; [exact E|exact H|].
      apply escapestr_gives; [exact (hold_wf _ _ _ H)|exact S0|apply heap_string_plain0; assumption].
  - injection Ex as <-. split; [|intros s; discriminate]. cbn [obind N.eqb gives]. split; [apply ext_refl; exact W|]. left. split; [reflexivity|]. split; [apply hold_init; exact W|auto].
Qed.

(** *** Arrays *)
Lemma take_mem_bytes : forall d n x, bytes_ok d -> take_mem d n = Ok x -> bytes_ok x.
Proof.
  intros d n x B E. unfold take_mem in E. destruct (n <=? blen d); [|discriminate]. injection E as <-. unfold bytes_ok in *. rewrite <- (firstn_skipn (N.to_nat n) d) in B. apply Forall_app in B. apply B.
Qed.
Lemma cstr_free : forall s, cstr_ok s -> ~ In 0 s.
Proof. intros s H Q. unfold cstr_ok in H. rewrite Forall_forall in H. specialize (H 0 Q). lia. Qed.
Lemma upto_nul_plain : forall s r, ~ In 0 s -> upto_nul (s ++ 0 :: r) = s.
Proof.
  induction s as [|c s IH]; intros r H; [reflexivity|]. cbn [app upto_nul]. destruct (c =? 0) eqn:E; [exfalso; apply H; left; lia|]. f_equal. apply IH. intros Q. apply H. right. exact Q.
Qed.

Lemma escape_array_gives : forall h v i b x, heap_wf h -> (exists p, get_ptr h v i = Ok p /\ get_int h v (i + 1) = Ok (Z.of_N (ba_len b)) /\ load_buf h p = Ok (ba_data b)) ->
  (forall d, ba_data b = Some d -> bytes_ok d) -> escape_serialize_array b = Ok x ->
  gives h (h_escape_array h (v, i)) x /\ (forall s, x = Some s -> ~ In 0 s /\ blen s < SIZE_MAX).
Proof.
  intros h v i b x W (p & Gp & Gn & Gd) B Ex. unfold h_escape_array, h_member. cbn [fst snd]. rewrite Gp. cbn [obind]. rewrite Gn. cbn [obind]. rewrite Gd. cbn [obind].
  rewrite N2Z.id. unfold h_base64. cbn [ba_data ba_len]. unfold escape_serialize_array in Ex.
  assert (Hs : exists src, (match ba_data b with None => if ba_len b =? 0 then Ok [] else UB NullDeref | Some d => take_mem d (ba_len b) end) = Ok src /\ bytes_ok src).
  { destruct (ba_data b) as [d|] eqn:Ed.
    - destruct (take_mem d (ba_len b)) as [src|] eqn:Et; [|discriminate]. exists src. split; [reflexivity|]. eapply take_mem_bytes; [apply B; reflexivity|exact Et].
    - destruct (ba_len b =? 0); [|discriminate]. exists []. split; [reflexivity|constructor]. }
  destruct Hs as (src & Es & Bs). rewrite Es in Ex |- *. cbn [obind] in Ex |- *. rewrite (encode_spec src Bs) in Ex.
  assert (Zs : ~ In 0 (rfc_encode src)) by (apply cstr_free; apply rfc_encode_cstr; exact Bs). split.
  - destruct (hp_oom h (hp_next h)) eqn:Oo; cbn [negb].
    + rewrite (encode_no_mem src Bs). cbn [obind]. cbn [Z.ltb Z.compare].
      destruct (hold_alloc _ h [] (Buf []) (hold_init h W)) as (a & h' & E & X & Hn & [(A & _ & _ & H)|(_ & _ & Q & _)]); [|congruence].
      rewrite E. cbn [snd gives]. split; [exact X|]. left. split; [reflexivity|]. split; [exact H|]. right. apply refused_here; [exact Oo|lia].
    + rewrite (encode_spec src Bs). destruct (blen src <? SIZE_MAX / 4) eqn:El; cbn [obind] in Ex |- *.
      * destruct (hold_alloc _ h [] (Buf (rfc_encode src ++ [0])) (hold_init h W)) as (a & h' & E & X & Hn & [(_ & Q & _)|(_ & A0 & _ & C & _ & H)]); [congruence|].
        rewrite E. cbn [obind]. destruct (Z.of_N (rfc_len (blen src)) <? 0)%Z eqn:Ez; [lia|]. rewrite (upto_nul_plain _ [] Zs), escapestr_quote in Ex. assert (x = Some (quote (rfc_encode src))) as -> by congruence. clear Ex.
        change (gives h (then_free (h_escapestr h' a) a) (Some (quote (rfc_encode src)))). eapply then_free_gives; [exact X|exact H|].
        apply escapestr_gives; [exact (hold_wf _ _ _ H)|exact A0|apply heap_string_plain0; assumption].
      * cbn [Z.ltb Z.compare] in Ex |- *. injection Ex as <-. cbn [gives]. split; [apply ext_refl; exact W|]. left. split; [reflexivity|]. split; [apply hold_init; exact W|auto].
  - intros s ->. destruct (blen src <? SIZE_MAX / 4) eqn:El; cbn [obind] in Ex; [|cbn [Z.ltb Z.compare] in Ex; discriminate].
    destruct (Z.of_N (rfc_len (blen src)) <? 0)%Z eqn:Ez; [lia|]. rewrite (upto_nul_plain _ [] Zs), escapestr_quote in Ex. assert (s = quote (rfc_encode src)) as -> by congruence.
    split; [apply quote_free; exact Zs|]. rewrite quote_len, rfc_encode_len. unfold rfc_len, SIZE_MAX in *. lia.
Qed.

(** *** Attributes *)
Lemma in_memory_ext : forall h h' v pl w, heap_wf h -> ext h h' -> in_memory h v pl w -> in_memory h' v pl w.
Proof.
  intros h h' v pl w W E (V0 & (p & Gp & S) & A & R). split; [exact V0|]. split; [|split; [|exact R]].
  - exists p. split; [eapply ext_get_ptr; eassumption|]. destruct (v_serial w) as [s|]; [|exact S]. destruct S as [P0 S]. split; [exact P0|]. eapply ext_string; eassumption.
  - intros a i b Hf Hb. destruct (A a i b Hf Hb) as (q & Q1 & Q2 & Q3). exists q. split; [eapply ext_get_ptr; eassumption|]. split; [eapply ext_get_int; eassumption|eapply ext_load_buf; eassumption].
Qed.

Lemma heap_string_free : forall h p s, heap_string h p = Ok s -> ~ In 0 s.
Proof.
  intros h p s E. unfold heap_string in E. destruct (load_buf h p) as [[d|]|]; cbn [obind] in E; try discriminate.
  pose proof (strlen_exact d) as L. destruct (strlen d) as [n|k]; [|discriminate]. destruct L as [_ ->]. cbn [obind] in E. unfold take_mem in E.
  destruct (blen (c_string d) <=? blen d); [|discriminate]. assert (s = c_string d) as ->. { rewrite c_string_prefix in E. congruence. } apply c_string_free.
Qed.

Lemma assertion_fine : forall z n, assertion_name z = Ok (Some n) -> ~ In 0 n /\ blen n < 100.
Proof.
  intros z n E. unfold assertion_name in E. repeat match type of E with context [if ?c then _ else _] => destruct c end; try discriminate;
    repeat match type of E with context [match ?c with _ => _ end] => destruct c end; try discriminate; injection E as <-;
    (split; [intros Q; cbn in Q; repeat (destruct Q as [Q|Q]; [discriminate|]); exact Q|vm_compute; reflexivity]).
Qed.
Lemma name_fine : forall a, ~ In 0 (attr_name a) /\ blen (attr_name a) < 100.
Proof. intros [| | | | | | | | | | |z]; (split; [intros Q; cbn in Q; repeat (destruct Q as [Q|Q]; [discriminate|]); exact Q|vm_compute; reflexivity]). Qed.

Lemma nonempty_same : forall h v pl w a, in_memory h v pl w -> h_is_attr_nonempty h v pl a = Ok (is_attr_nonempty w a).
Proof.
  intros h v pl w a (V0 & (p & Gp & S) & A & R1 & R2 & R3 & R4 & R5).
  assert (Arr : forall a i b, arr_field a = Some i -> get_attr_array (Some w) a = Some b -> h_is_attr_array_nonempty h (v, i) = Ok (is_attr_array_nonempty (Some b))).
  { intros a' i b Hf Hb. destruct (A a' i b Hf Hb) as (q & Q1 & Q2 & Q3). unfold h_is_attr_array_nonempty. cbn [fst snd]. rewrite (proj2 (N.eqb_neq _ _) V0), Q1. cbn [obind]. rewrite Q2. cbn [obind is_attr_array_nonempty]. f_equal.
    unfold load_buf in Q3. destruct (q =? 0) eqn:Eq.
    - assert (ba_data b = None) as -> by congruence. cbn [andb]. f_equal. lia.
    - destruct (hp_cell h q) as [|[x|]|]; try discriminate. assert (ba_data b = Some x) as -> by congruence. reflexivity. }
  destruct a; unfold h_is_attr_nonempty; cbn [arr_field is_attr_nonempty]; try (first [apply (Arr AIssuer 1%nat)|apply (Arr APinned 3%nat)|apply (Arr ANonce 5%nat)|apply (Arr APrior 7%nat)|apply (Arr AProximity 9%nat)]; reflexivity); try (cbn [is_attr_nonempty]; congruence).
  - rewrite Gp. cbn [obind]. f_equal. destruct (v_serial w) as [s|]; [destruct S as [S _]; rewrite (proj2 (N.eqb_neq _ _) S); reflexivity|subst p; reflexivity].
Qed.

Lemma nothing_gives : forall h, heap_wf h -> gives h (Ok (0, h)) None.
Proof. intros h W. cbn [gives]. split; [apply ext_refl; exact W|]. left. split; [reflexivity|]. split; [apply hold_init; exact W|auto]. Qed.

Lemma attr_gives : forall h v pl w a x, heap_wf h -> in_memory h v pl w -> fits w -> serialize_attr w a = Ok x ->
  gives h (h_serialize_attr h v pl a) x /\ (forall s, x = Some s -> ~ In 0 s /\ blen s < SIZE_MAX).
Proof.
  intros h v pl w a x W M (Fs & Fa & _) Ex. pose proof M as (V0 & (p & Gp & S) & A & R1 & R2 & R3 & R4 & R5).
  assert (Arr : forall a i b, arr_field a = Some i -> get_attr_array (Some w) a = Some b -> escape_serialize_array b = Ok x ->
    gives h (h_escape_array h (v, i)) x /\ (forall s, x = Some s -> ~ In 0 s /\ blen s < SIZE_MAX)).
  { intros a' i b Hf Hb. apply escape_array_gives; [exact W|exact (A a' i b Hf Hb)|]. intros d. apply (Fa a' b d Hb). }
  destruct a; cbn [serialize_attr h_serialize_attr arr_field] in *; try (first [apply (Arr AIssuer 1%nat (v_issuer w))|apply (Arr APinned 3%nat (v_pinned w))|apply (Arr ANonce 5%nat (v_nonce w))|apply (Arr APrior 7%nat (v_prior w))|apply (Arr AProximity 9%nat (v_proximity w))]; first [reflexivity|exact Ex]).
  - rewrite R1 in Ex. apply escape_time_gives; assumption.
  - rewrite R2 in Ex. apply escape_time_gives; assumption.
  - rewrite R4 in Ex. destruct (assertion_name (v_assertion pl)) as [[n|]|k] eqn:En; cbn [obind] in Ex |- *; [| |discriminate].
    + rewrite escapestr_quote in Ex. assert (x = Some (quote n)) as -> by congruence. destruct (assertion_fine _ _ En) as [Z L]. split; [apply escape_text_gives; exact W|].
      intros s Es. assert (s = quote n) as -> by congruence. split; [apply quote_free; exact Z|]. rewrite quote_len. unfold SIZE_MAX. lia.
    + cbn [serialize_escapestr] in Ex. assert (x = None) as -> by congruence. split; [apply nothing_gives; exact W|intros; discriminate].
  - rewrite Gp. cbn [obind]. destruct (v_serial w) as [t|] eqn:Et.
    + destruct S as [P0 S]. rewrite escapestr_quote in Ex. assert (x = Some (quote t)) as -> by congruence. split; [apply escapestr_gives; assumption|].
      intros s Es. assert (s = quote t) as -> by congruence. split; [apply quote_free; exact (heap_string_free _ _ _ S)|]. rewrite quote_len. specialize (Fs t eq_refl). lia.
    + subst p. cbn [serialize_escapestr] in Ex. assert (x = None) as -> by congruence. split; [apply nothing_gives; exact W|intros; discriminate].
  - rewrite R5 in Ex. unfold h_bool2str. destruct (v_revocation pl); cbn [serialize_bool2str] in *; rewrite sprintf_ok in Ex |- * by (vm_compute; discriminate); cbn [obind] in Ex |- *;
      match type of Ex with Ok (Some ?t) = _ => assert (x = Some t) as -> by congruence end;
      (split; [apply new_text_gives; exact W|]; intros s Es; match type of Es with Some ?t = _ => assert (s = t) as -> by congruence end;
       split; [intros Q; cbn in Q; repeat (destruct Q as [Q|Q]; [discriminate|]); exact Q|vm_compute; reflexivity]).
  - rewrite R3 in Ex. apply escape_time_gives; assumption.
  - assert (x = None) as -> by congruence. split; [apply nothing_gives; exact W|intros; discriminate].
Qed.
