(** The acquisition steps of the handlers while memory lasts. *)
From Coq Require Import Permutation.
From Verif Require Import Base PBase MOs MBase64 MSerialize MVoucher MCrypto MRequest MHeap MArray MVoucherHeap MConfig MHandlers SBase64 SHeap SArray SConfig SRequest SHandlers PBase64 PHeap PArray PBlocks PConfig PConfigMore PCertFiles POwn.
Open Scope N_scope.

Lemma ok_live_buf : forall h a d, load_buf h a = Ok (Some d) -> a <> 0 /\ hp_cell h a = Live (Buf d).
Proof.
  intros h a d H. unfold load_buf in H. destruct (a =? 0) eqn:A; [discriminate|]. apply N.eqb_neq in A. split; [exact A|].
  destruct (hp_cell h a) as [|[x|fs]|]; try discriminate. injection H as <-. reflexivity.
Qed.
Lemma ok_string_live : forall h a s, heap_string h a = Ok s -> is_live h a.
Proof.
  intros h a s H. unfold heap_string in H. destruct (load_buf h a) as [[d|]|] eqn:L; try discriminate. apply ok_live_buf in L. eexists. apply L.
Qed.
Lemma ok_ptr_live : forall h a i p, get_ptr h a i = Ok p -> a <> 0 /\ is_live h a.
Proof.
  intros h a i p H. unfold get_ptr, get_field, load in H. destruct (a =? 0) eqn:A; [discriminate|]. apply N.eqb_neq in A. split; [exact A|].
  destruct (hp_cell h a) as [|b|] eqn:C; try discriminate. eexists. exact C.
Qed.

(** One more block, kept. *)
Lemma plenty_alloc : forall h b, heap_wf h -> plenty h -> exists a h', alloc h b = (a, h') /\ a <> 0 /\ a = hp_next h /\ hp_next h' = hp_next h + 1 /\ hp_cell h' a = Live b /\
  (forall x, x <> a -> hp_cell h' x = hp_cell h x) /\ ext h h' /\ only (hp_next h) h' (fun x => x = a).
Proof.
  intros h b W PL. destruct (only_alloc _ _ _ b (only_init h W)) as (a & h' & E & Ho & Hn & C). destruct C as [(_ & Q & _)|(A & A0 & Ba & _ & Ca & Cf & Cx & O)]; [rewrite PL in Q; discriminate|].
  exists a, h'. split; [exact E|]. split; [exact A0|]. split; [exact A|]. split; [exact Hn|]. split; [exact Ca|]. split; [exact Cx|]. split.
  - split; [apply O|]. split; [lia|]. split; [|exact Ho]. intros x Hx. apply Cx. lia.
  - eapply only_iff; [exact O|]. intros x _. cbn beta. tauto.
Qed.
Lemma buf_arrives : forall h d, heap_wf h -> plenty h -> exists p h', alloc h (Buf d) = (p, h') /\ p <> 0 /\ arrived h h' (OBuf p) /\ load_buf h' p = Ok (Some d).
Proof.
  intros h d W PL. destruct (plenty_alloc h (Buf d) W PL) as (a & h' & E & A0 & A & Hn & Ca & Cx & Ex & O). exists a, h'. split; [exact E|]. split; [exact A0|]. split.
  - split; [exact Ex|]. exists [a]. apply st_one.
    + eapply only_iff; [exact O|]. intros x _. cbn [In]. split; [intros ->; left; reflexivity|intros [->|[]]; reflexivity].
    + right. split; [exact A0|]. split; [eexists; exact Ca|reflexivity].
    + constructor; [intros []|constructor].
    + intros x [<-|[]]. lia.
  - unfold load_buf. rewrite (proj2 (N.eqb_neq _ _) A0), Ca. reflexivity.
Qed.

Lemma struct_arrives : forall h p b n d h', heap_wf h' -> hp_next h <= hp_next h' -> hp_oom h' = hp_oom h -> p <> 0 -> b <> 0 -> b <> p -> hp_next h <= p -> hp_next h <= b ->
  hp_cell h' p = Live (Struct [P b; I n]) -> hp_cell h' b = Live (Buf d) -> (forall x, x <> p -> x <> b -> hp_cell h' x = hp_cell h x) -> heap_wf h -> arrived h h' (OArr p).
Proof.
  intros h p b n d h' W' Hn Ho P0 B0 Bp Hp Hb Cp Cb Cx W. split.
  - split; [exact W'|]. split; [exact Hn|]. split; [|exact Ho]. intros x Hx. apply Cx; lia.
  - exists [p; b]. apply st_one.
    + split; [exact W'|]. split; [exact Hn|]. intros x Hx. cbn [In]. split.
      * intros [y Hy]. destruct (N.eq_dec p x) as [->|Q]; [left; reflexivity|]. destruct (N.eq_dec b x) as [->|Q2]; [right; left; reflexivity|].
        rewrite Cx in Hy by congruence. destruct W as (_ & _ & W3). rewrite W3 in Hy by exact Hx. discriminate.
      * intros [<-|[<-|[]]]; eexists; eassumption.
    + right. exists b, n. split; [exact P0|]. split; [exact Cp|]. right. split; [exact B0|]. split; [exact Bp|]. split; [exists d; exact Cb|reflexivity].
    + constructor; [intros [Q|[]]; congruence|]. constructor; [intros []|constructor].
    + intros x [<-|[<-|[]]]; assumption.
Qed.

Lemma barray_cells : forall h p b d n, p <> 0 -> b <> 0 -> hp_cell h p = Live (Struct [P b; I n]) -> hp_cell h b = Live (Buf d) -> h_barray h p = Ok (Some (mk_ba (Some d) (Z.to_N n))).
Proof.
  intros h p b d n P0 B0 Cp Cb. unfold h_barray. rewrite (proj2 (N.eqb_neq _ _) P0). rewrite (get_ptr_cell _ _ 0%nat _ b P0 Cp eq_refl). cbn [obind].
  rewrite (get_int_cell _ _ 1%nat _ _ P0 Cp eq_refl). cbn [obind]. unfold load_buf. rewrite (proj2 (N.eqb_neq _ _) B0), Cb. reflexivity.
Qed.

Lemma cert_arrives : forall rd h path t, heap_wf h -> plenty h -> heap_string h path = Ok t ->
  match rd t with
  | None => h_file_to_x509buf rd h path = Ok (0, h)
  | Some d => exists c h', h_file_to_x509buf rd h path = Ok (c, h') /\ c <> 0 /\ arrived h h' (OArr c) /\ h_barray h' c = Ok (Some (ba_of d))
  end.
Proof.
  intros rd h path t W PL Hp. destruct (rd t) as [d|] eqn:Er.
  2:{ unfold h_file_to_x509buf. rewrite Hp. cbn [obind]. rewrite Er. reflexivity. }
  destruct (x509_file rd (hp_next h) h _ path t (only_init h W) Hp) as (c & h' & E & Ho & Hn & C). exists c, h'. split; [exact E|].
  destruct C as [(_ & [Q|Q] & _)|(b & d' & Er' & C0 & B0 & Ne & Bc & Bb & Cc & Cb & Fc & Fb & Cx & O)]; [congruence|exfalso; eapply oomed_plenty; eassumption|].
  assert (d' = d) as -> by congruence. split; [exact C0|]. split.
  - eapply (struct_arrives h c b); eauto. apply O.
  - rewrite (barray_cells h' c b d _ C0 B0 Cc Cb). unfold ba_of. rewrite N2Z.id. reflexivity.
Qed.

Lemma new_array_arrives : forall h d, heap_wf h -> plenty h ->
  exists c h', h_new_array h (Some d) = Ok (c, h') /\ c <> 0 /\ arrived h h' (OArr c) /\ h_barray h' c = Ok (Some (ba_of d)).
Proof.
  intros h d W PL. unfold h_new_array. destruct (plenty_alloc h (Struct [P 0; I 0]) W PL) as (a & h1 & E1 & A0 & A & Hn1 & Ca & Cx1 & Ex1 & O1). rewrite E1, (proj2 (N.eqb_neq _ _) A0).
  assert (W1 : heap_wf h1) by apply Ex1. destruct (plenty_alloc h1 (Buf d) W1 (ext_plenty _ _ Ex1 PL)) as (b & h2 & E2 & B0 & B & Hn2 & Cb & Cx2 & Ex2 & O2). rewrite E2, (proj2 (N.eqb_neq _ _) B0).
  assert (Ca2 : hp_cell h2 a = Live (Struct [P 0; I 0])) by (rewrite Cx2 by lia; exact Ca).
  erewrite set_field_at; [|exact A0|exact Ca2|reflexivity]. cbn [obind set_nthv]. erewrite set_field_at; [|exact A0|apply put_same|reflexivity]. cbn [obind set_nthv].
  match goal with |- context [Ok (a, ?x)] => set (h3 := x) end. exists a, h3. split; [reflexivity|]. split; [exact A0|].
  assert (Cb3 : hp_cell h3 b = Live (Buf d)) by (unfold h3; rewrite !put_other by lia; exact Cb).
  assert (Ca3 : hp_cell h3 a = Live (Struct [P b; I (Z.of_N (blen d))])) by apply put_same. split.
  - apply (struct_arrives h a b (Z.of_N (blen d)) d); try assumption; try lia.
    + unfold h3. eapply wf_write; [|exact A0|apply put_same|auto]. eapply wf_write; [apply Ex2|exact A0|exact Ca2|auto].
    + unfold h3. cbn [put hp_next]. lia.
    + unfold h3. cbn [put hp_oom]. destruct Ex1 as (_ & _ & _ & Q1), Ex2 as (_ & _ & _ & Q2). congruence.
    + intros x X1 X2. unfold h3. rewrite !put_other by exact X1. rewrite Cx2, Cx1 by assumption. reflexivity.
  - rewrite (barray_cells h3 a b d _ A0 B0 Ca3 Cb3). unfold ba_of. rewrite N2Z.id. reflexivity.
Qed.

Lemma decode_arrives : forall h src, heap_wf h -> plenty h -> bytes_ok src ->
  match rfc_decode src with
  | Some d => exists p h', h_base64str2array h src = Ok (Z.of_N (blen d), p, h') /\ p <> 0 /\ arrived h h' (OBuf p) /\ load_buf h' p = Ok (Some d)
  | None =>
    match filter b64_relevant src with
    | [] => h_base64str2array h src = Ok ((-1)%Z, 0, h)
    | _ => exists p h', h_base64str2array h src = Ok ((-1)%Z, p, h') /\ p <> 0 /\ ext h h' /\ st (hp_next h) h' [] /\ hp_cell h' p = Freed
    end
  end.
Proof.
  intros h src W PL B. unfold h_base64str2array. rewrite PL. cbn [negb]. rewrite (decode_spec src B). destruct (rfc_decode src) as [d|].
  - cbn [obind]. destruct (buf_arrives h d W PL) as (p & h' & E & P0 & Ar & L). rewrite E. exists p, h'. auto.
  - destruct (filter b64_relevant src) as [|x r]; cbn [obind]; [reflexivity|].
    destruct (plenty_alloc h (Buf []) W PL) as (a & h' & E & A0 & A & Hn & Ca & Cx & Ex & O). rewrite E.
    assert (La : is_live h' a) by (eexists; exact Ca). destruct (free_live h' a (proj1 Ex) La) as [E2 W2]. rewrite E2. cbn [obind]. exists a, (MHeap.put h' a Freed). split; [reflexivity|]. split; [exact A0|].
    split; [|split].
    + split; [exact W2|]. split; [cbn [put hp_next]; lia|]. split; [|destruct Ex as (_ & _ & _ & Q); exact Q]. intros y Hy. rewrite put_other by lia. apply Cx. lia.
    + split; [|split; [constructor|split; [constructor|intros y Hy; destruct Hy]]]. eapply only_iff; [apply only_freed; [exact O|exact La]|]. intros y _. cbn beta. split; [tauto|]. intros Q. destruct Q.
    + apply put_same.
Qed.
Lemma decode_bad : forall src, bad_padding src <-> rfc_decode src = None /\ filter b64_relevant src <> [].
Proof.
  intros src. unfold bad_padding, rfc_decode. rewrite <- decode_groups_fail. destruct (filter b64_relevant src) as [|x r]; [|split; [intros H; split; [exact H|discriminate]|intros [H _]; exact H]].
  split; [intros H; discriminate|intros [_ H]; congruence].
Qed.

Lemma no_nul : forall d, cstr_ok d -> ~ In 0 d.
Proof. intros d H Q. unfold cstr_ok in H. rewrite Forall_forall in H. apply H in Q. lia. Qed.
Lemma c_string_app : forall d rest, ~ In 0 d -> c_string (d ++ 0 :: rest) = d.
Proof.
  induction d as [|c d IH]; intros rest H; [reflexivity|]. cbn [app c_string]. destruct (c =? 0) eqn:E; [apply N.eqb_eq in E; exfalso; apply H; left; exact E|]. f_equal. apply IH. intros Q. apply H. right. exact Q.
Qed.

(** A block that comes and goes. *)
Lemma come_and_go : forall h d, heap_wf h -> plenty h -> exists p h1, alloc h (Buf d) = (p, h1) /\ p <> 0 /\ ext h h1 /\ hp_cell h1 p = Live (Buf d) /\
  exists h', sys_free h1 p = Ok h' /\ ext h h' /\ st (hp_next h) h' [].
Proof.
  intros h d W PL. destruct (plenty_alloc h (Buf d) W PL) as (a & h' & E & A0 & A & Hn & Ca & Cx & Ex & O). exists a, h'. split; [exact E|]. split; [exact A0|]. split; [exact Ex|]. split; [exact Ca|].
  assert (La : is_live h' a) by (eexists; exact Ca). destruct (free_live h' a (proj1 Ex) La) as [E2 W2]. exists (MHeap.put h' a Freed). split; [exact E2|]. split.
  - split; [exact W2|]. split; [cbn [put hp_next]; lia|]. split; [|destruct Ex as (_ & _ & _ & Q); exact Q]. intros y Hy. rewrite put_other by lia. apply Cx. lia.
  - split; [|split; [constructor|split; [constructor|intros y Hy; destruct Hy]]]. eapply only_iff; [apply only_freed; [exact O|exact La]|]. intros y _. cbn beta. split; [tauto|]. intros Q. destruct Q.
Qed.

Lemma encode_step : forall h p d, heap_wf h -> plenty h -> bytes_ok d -> h_barray h p = Ok (Some (ba_of d)) ->
  exists h', h_array2base64 h p = Ok ((if blen d <? SIZE_MAX / 4 then Some (rfc_encode d) else None), h') /\ ext h h' /\ st (hp_next h) h' [].
Proof.
  intros h p d W PL Bd Hb. unfold h_barray in Hb. destruct (p =? 0); [discriminate|]. unfold h_array2base64.
  destruct (get_ptr h p 0) as [a|] eqn:L1; [|discriminate]. cbn [obind] in *. destruct (get_int h p 1) as [n|] eqn:L2; [|discriminate]. cbn [obind] in *.
  destruct (load_buf h a) as [x|] eqn:L3; [|discriminate]. cbn [obind] in *. injection Hb as -> Hn. unfold take_mem. rewrite Hn, N.leb_refl. cbn [obind].
  replace (firstn (N.to_nat (blen d)) d) with d by (unfold blen; rewrite Nat2N.id, firstn_all; reflexivity). rewrite PL. cbn [negb]. rewrite (encode_spec d Bd).
  destruct (blen d <? SIZE_MAX / 4); cbn [obind].
  2:{ exists h. split; [reflexivity|]. split; [apply ext_refl; exact W|]. apply st_init. exact W. }
  destruct (come_and_go h (rfc_encode d ++ [0]) W PL) as (c & h1 & E1 & C0 & Ex1 & Cc & h2 & E2 & Ex2 & S2). rewrite E1.
  destruct (Z.ltb_spec (Z.of_N (rfc_len (blen d))) 0) as [Q|_]; [lia|].
  rewrite (heap_string_exact h1 c _ C0 Cc) by (apply in_or_app; right; left; reflexivity). cbn [obind]. rewrite E2. cbn [obind].
  rewrite c_string_app by (apply no_nul, rfc_encode_cstr; exact Bd). exists h2. auto.
Qed.

(** *** Lists of files *)
Lemma Forall2_weaken : forall A B (P Q : A -> B -> Prop) l l', Forall2 P l l' -> (forall a b, P a b -> Q a b) -> Forall2 Q l l'.
Proof. intros A B P Q l l' F H. induction F; constructor; auto. Qed.

Lemma ext_path_list : forall h h' p ts, heap_wf h -> ext h h' -> path_list h p ts -> path_list h' p ts.
Proof.
  intros h h' p ts W E [H|(xs & H1 & H2 & H3)]; [left; exact H|]. right. exists xs. split; [eapply ext_for_each; eassumption|]. split; [eapply ext_len; eassumption|].
  eapply Forall2_weaken; [exact H3|]. intros x t (q & Hq & Hs). exists q. split; [eapply ext_get_ptr; eassumption|eapply ext_string; eassumption].
Qed.

Lemma missing_dec : forall (rd : bytes -> option bytes) ts, (exists ds, Forall2 (fun t d => rd t = Some d) ts ds) \/ missing rd ts.
Proof.
  intros rd. induction ts as [|t ts IH]; [left; exists []; constructor|]. destruct (rd t) as [d|] eqn:E; [|right; exists t; split; [left; reflexivity|exact E]].
  destruct IH as [[ds H]|(t' & H1 & H2)]; [left; exists (d :: ds); constructor; assumption|right; exists t'; split; [right; exact H1|exact H2]].
Qed.
Lemma missing_not : forall (rd : bytes -> option bytes) ts ds, Forall2 (fun t d => rd t = Some d) ts ds -> ~ missing rd ts.
Proof. intros rd ts ds F (t & Ht & Q). induction F as [|t' d ts ds H F IH]; [destruct Ht|]. destruct Ht as [->|Ht]; [congruence|]. apply IH. exact Ht. Qed.

Lemma list_arrives : forall rd h p ts, heap_wf h -> plenty h -> path_list h p ts ->
  (exists out h' l, load_cert_files rd h p = Ok (0%Z, out, h') /\ arrived h h' (OList out) /\ h_certlist h' out = Ok l /\ cert_list rd ts l /\ ~ missing rd ts) \/
  (exists out h', load_cert_files rd h p = Ok ((-1)%Z, out, h') /\ out <> 0 /\ ext h h' /\ st (hp_next h) h' [] /\ hp_cell h' out = Freed /\ missing rd ts).
Proof.
  intros rd h p ts W PL H.
  assert (NONE : ts = [] -> load_cert_files rd h p = Ok (0%Z, 0, h) -> exists out h' l, load_cert_files rd h p = Ok (0%Z, out, h') /\ arrived h h' (OList out) /\ h_certlist h' out = Ok l /\ cert_list rd ts l /\ ~ missing rd ts).
  { intros -> E. exists 0, h, None. split; [exact E|]. split; [|split; [reflexivity|split; [reflexivity|intros (t & [] & _)]]]. split; [apply ext_refl; exact W|]. exists []. apply st_null; [apply st_init; exact W|left; auto]. }
  destruct H as [[-> ->]|(xs & H1 & H2 & H3)]; [left; apply NONE; reflexivity|].
  assert (P0 : p <> 0). { unfold dl_list_len in H2. destruct (get_ptr h p arr_off) as [n|] eqn:G; [|discriminate]. apply ok_ptr_live in G. tauto. }
  destruct (List.length xs) as [|n] eqn:Lx.
  { destruct xs; [|discriminate]. inversion H3; subst. left. apply NONE; [reflexivity|]. unfold load_cert_files. rewrite (proj2 (N.eqb_neq _ _) P0), H2. reflexivity. }
  assert (Hts : ts <> []) by (intros ->; inversion H3; subst; discriminate).
  unfold load_cert_files. rewrite (proj2 (N.eqb_neq _ _) P0), H2. cbn [obind]. destruct (N.of_nat (S n) =? 0) eqn:Ez; [apply N.eqb_eq in Ez; lia|]. clear Ez.
  destruct (init_alist h W) as (out & h1 & E1 & W1 & Hn1 & Ho1 & Cs). rewrite E1. cbn [obind]. destruct Cs as [(_ & Q & _)|(HO & O0 & _ & AL1 & Cx)]; [rewrite PL in Q; discriminate|].
  rewrite (proj2 (N.eqb_neq _ _) O0). assert (K1 : kept (hp_next h) h h1) by (intros a Ha; apply Cx; lia).
  assert (Ex1 : ext h h1) by (split; [exact W1|split; [lia|split; [exact K1|exact Ho1]]]).
  rewrite (ext_for_each _ _ _ _ _ W Ex1 H1). cbn [obind].
  assert (PA : Forall2 (path_at (hp_next h) h) xs ts).
  { eapply Forall2_weaken; [exact H3|]. intros x t (q & Hq & Hs). split; [eapply live_below; [exact W|eapply ok_ptr_live; exact Hq]|]. exists q. split; [eapply live_below; [exact W|eapply ok_string_live; exact Hs]|auto]. }
  assert (O1 : only (hp_next h) h1 (fun a => In a [out])).
  { split; [exact W1|]. split; [lia|]. intros a Ha. split; [|intros [<-|[]]; eapply alist_live; [exact AL1|left; reflexivity]]. intros [y Hy]. destruct (N.eq_dec a out) as [->|Hx]; [left; reflexivity|]. rewrite Cx in Hy by exact Hx. destruct W as (_ & _ & W3). rewrite W3 in Hy by exact Ha. discriminate. }
  assert (NO : ~ oomed h1). { intros (a & _ & Q). rewrite Ho1, PL in Q. discriminate. }
  destruct (cert_loop rd (hp_next h) h out (N.le_refl _) xs ts h1 [] [out] PA K1 O1 AL1) as [[_ Q]|(rc & h2 & E2 & K2 & Ho2 & Rs)].
  { intros a [<-|[]]. lia. } { contradiction. }
  rewrite E2. cbn [obind fst snd]. destruct Rs as [(-> & Q & O2 & Cf)|(-> & ds & F' & Hd & O2 & AL2 & Fb)].
  - right. exists out, h2. split; [reflexivity|]. split; [exact O0|]. split; [|split; [|split]].
    + split; [apply O2|]. split; [apply O2|]. split; [exact K2|congruence].
    + split; [|split; [constructor|split; [constructor|intros y Hy; destruct Hy]]]. eapply only_iff; [exact O2|]. intros y _. split; [intros []|intros Hy; destruct Hy].
    + exact Cf.
    + destruct Q as [(t & Ht & Q)|Q]; [exists t; auto|contradiction].
  - left. exists out, h2, (Some (map (fun d => (d, 0%Z)) ds)). split; [reflexivity|]. split; [|split; [|split]].
    + split; [split; [apply O2|split; [apply O2|split; [exact K2|congruence]]]|]. exists F'. apply st_one.
      * exact O2.
      * right. eexists. exact AL2.
      * destruct AL2 as (ns & L & _ & ->). apply L.
      * exact Fb.
    + unfold h_certlist. rewrite (proj2 (N.eqb_neq _ _) O0). destruct (alist_items _ _ _ _ (proj1 O2) AL2) as [-> _]. reflexivity.
    + split; [exact Hts|]. clear - Hd. induction Hd; cbn [map]; constructor; auto.
    + eapply missing_not. exact Hd.
Qed.

Lemma ext_items : forall h h' l xs, heap_wf h -> ext h h' -> array_items h l = Ok xs -> array_items h' l = Ok xs.
Proof.
  intros h h' l xs W E H. unfold array_items in *. destruct (dl_list_for_each arr_off h l) as [ns|] eqn:L; [|discriminate]. rewrite (ext_for_each _ _ _ _ _ W E L). cbn [obind] in *. clear L.
  revert xs H. induction ns as [|x ns IH]; intros xs H; [exact H|]. cbn [each] in *.
  destruct (arr_item h x) as [y|] eqn:I; [|discriminate]. cbn [obind] in H. destruct (each (arr_item h) ns) as [ys|]; [|discriminate]. cbn [obind] in H. rewrite (IH ys eq_refl).
  assert (I' : arr_item h' x = Ok y).
  { unfold arr_item in *. destruct (get_ptr h x 0) as [a|] eqn:L1; [|discriminate]. rewrite (ext_get_ptr _ _ _ _ _ W E L1). cbn [obind] in *.
    destruct (get_int h x 1) as [n|] eqn:L2; [|discriminate]. rewrite (ext_get_int _ _ _ _ _ W E L2). cbn [obind] in *.
    destruct (get_int h x 2) as [f|] eqn:L3; [|discriminate]. rewrite (ext_get_int _ _ _ _ _ W E L3). cbn [obind] in *.
    destruct (load_buf h a) as [d|] eqn:L4; [|discriminate]. rewrite (ext_load_buf _ _ _ _ W E L4). exact I. }
  rewrite I'. exact H.
Qed.
Lemma ext_certlist : forall h h' l xs, heap_wf h -> ext h h' -> h_certlist h l = Ok xs -> h_certlist h' l = Ok xs.
Proof.
  intros h h' l xs W E H. unfold h_certlist in *. destruct (l =? 0); [exact H|]. destruct (array_items h l) as [ys|] eqn:L; [|discriminate]. rewrite (ext_items _ _ _ _ W E L). exact H.
Qed.

(** [c_str] of any body. *)
Lemma c_str_ok : forall s, c_str s = Ok (c_string s).
Proof.
  intros s. unfold c_str. pose proof (strlen_exact (s ++ [0])) as L. destruct (strlen (s ++ [0])) as [n|k].
  - destruct L as [_ ->]. cbn [obind]. unfold take_mem. pose proof (c_string_len (s ++ [0])). destruct (blen (c_string (s ++ [0])) <=? blen (s ++ [0])) eqn:E; [|lia]. rewrite c_string_prefix. f_equal.
    clear. induction s as [|c s IH]; [reflexivity|]. cbn [app c_string]. destruct (c =? 0); [reflexivity|]. f_equal. exact IH.
  - exfalso. apply L. apply in_or_app. right. left. reflexivity.
Qed.
Lemma c_string_bytes : forall s, bytes_ok s -> bytes_ok (c_string s).
Proof. intros s H. induction H as [|c s Hc H IH]; [constructor|]. cbn [c_string]. destruct (c =? 0); constructor; assumption. Qed.
