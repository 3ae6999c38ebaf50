(** Proofs about the registrar's voucher endpoint. *)
From Coq Require Import Permutation.
From Verif Require Import Base PBase MOs MBase64 MSerialize MVoucher MCrypto MRequest MHeap MArray MVoucherHeap MConfig MHandlers SBase64 SHeap SArray SConfig SVoucher SRequest SHandlers
  PBase64 PHeap PArray PBlocks PConfig PConfigMore PCertFiles POwn PAcquire PAcquire2 PRequest PRequest2 PRequest3 PRequest4 PRequest5 PRequest6 PRequest7 PMasa.
Open Scope N_scope.

(** *** The client certificate *)
Lemma keyvalue_ok : forall entry names,
  ((exists n, In n names /\ entry n = None) /\ get_x509_keyvalue entry names = Ok None) \/
  ((forall n, In n names -> entry n <> None) /\ exists l, get_x509_keyvalue entry names = Ok (Some l) /\
     forall key, In key names -> NoDup names -> find (fun e => beqb (fst e) key) l = match entry key with Some (Some t) => Some (key, c_string t) | _ => None end).
Proof.
  intros entry. induction names as [|n names IH]; cbn [get_x509_keyvalue].
  { right. split; [intros n []|]. exists []. split; [reflexivity|]. intros key []. }
  destruct (entry n) as [[t|]|] eqn:En.
  - rewrite c_str_ok. cbn [obind]. destruct IH as [[(n' & H1 & H2) E]|[H (l & E & F)]]; rewrite E; cbn [obind].
    + left. split; [exists n'; split; [right; exact H1|exact H2]|reflexivity].
    + right. split; [intros n' [<-|Hn]; [congruence|apply H; exact Hn]|]. exists ((n, c_string t) :: l). split; [reflexivity|]. intros key Hk ND. inversion ND as [|? ? N1 N2]; subst. cbn [find fst].
      destruct (beqb n key) eqn:Q; [apply beqb_eq in Q; subst key; rewrite En; reflexivity|]. destruct Hk as [->|Hk]; [rewrite (proj2 (beqb_eq _ _) eq_refl) in Q; discriminate|]. apply F; assumption.
  - destruct IH as [[(n' & H1 & H2) E]|[H (l & E & F)]]; rewrite E.
    + left. split; [exists n'; split; [right; exact H1|exact H2]|reflexivity].
    + right. split; [intros n' [<-|Hn]; [congruence|apply H; exact Hn]|]. exists l. split; [reflexivity|]. intros key Hk ND. inversion ND as [|? ? N1 N2]; subst. destruct Hk as [->|Hk]; [|apply F; assumption].
      rewrite En. destruct (find (fun e => beqb (fst e) key) l) as [[k v]|] eqn:Fi; [|reflexivity]. exfalso. apply find_some in Fi. cbn [fst] in Fi. destruct Fi as [Fi Q]. apply beqb_eq in Q. subst k.
      apply N1. clear - E Fi. revert l E Fi. induction names as [|n r IH]; intros l E Fi; cbn [get_x509_keyvalue] in E; [injection E as <-; destruct Fi|].
      destruct (entry n) as [[t|]|]; [|right; eapply IH; eassumption|discriminate]. rewrite c_str_ok in E. cbn [obind] in E. destruct (get_x509_keyvalue entry r) as [[l'|]|]; try discriminate. cbn [obind] in E. injection E as <-.
      destruct Fi as [Q|Fi]; [injection Q as -> _; left; reflexivity|right; eapply IH; [reflexivity|exact Fi]].
  - left. split; [exists n; split; [left; reflexivity|exact En]|reflexivity].
Qed.
Lemma serial_find : forall l, crypto_getcert_serial l = option_map snd (find (fun e => beqb (fst e) (s2b "serialNumber")) l).
Proof. induction l as [|[k v] l IH]; [reflexivity|]. cbn [crypto_getcert_serial find fst]. destruct (beqb k (s2b "serialNumber")); [reflexivity|exact IH]. Qed.
Fixpoint nodupb (l : list bytes) : bool := match l with [] => true | x :: r => negb (existsb (beqb x) r) && nodupb r end.
Lemma nodupb_ok : forall l, nodupb l = true -> NoDup l.
Proof.
  induction l as [|x r IH]; intros H; [constructor|]. cbn [nodupb] in H. apply andb_prop in H. destruct H as [H1 H2]. constructor; [|apply IH; exact H2]. intros Q. apply Bool.negb_true_iff in H1.
  assert (existsb (beqb x) r = true) by (apply existsb_exists; exists x; split; [exact Q|apply beqb_eq; reflexivity]). congruence.
Qed.
Lemma names_nodup : NoDup NNAMES.
Proof. apply nodupb_ok. vm_compute. reflexivity. Qed.
Lemma names_serial : In (s2b "serialNumber") NNAMES.
Proof. cbv [NNAMES]. cbn [In]. tauto. Qed.

Lemma meta_cases : forall v,
  (exists s i sub, client_serial v s /\ crypto_getcert_meta (Some v) = Ok (Some (i, sub)) /\ crypto_getcert_serial sub = Some s) \/
  ((forall s, ~ client_serial v s) /\ (crypto_getcert_meta (Some v) = Ok None \/ exists i sub, crypto_getcert_meta (Some v) = Ok (Some (i, sub)) /\ crypto_getcert_serial sub = None)).
Proof.
  intros v. unfold crypto_getcert_meta. destruct (keyvalue_ok (cv_issuer_entry v) NNAMES) as [[(n & H1 & H2) E]|[H (l & E & F)]]; rewrite E; cbn [obind].
  { right. split; [|left; reflexivity]. intros s [Q _]. destruct (Q n H1). contradiction. }
  destruct (keyvalue_ok (cv_subject_entry v) NNAMES) as [[(n & H1 & H2) E2]|[H2 (l2 & E2 & F2)]]; rewrite E2; cbn [obind].
  { right. split; [|left; reflexivity]. intros s [Q _]. destruct (Q n H1). contradiction. }
  specialize (F2 _ names_serial names_nodup). destruct (cv_subject_entry v (s2b "serialNumber")) as [[t|]|] eqn:Es.
  - left. exists (c_string t), l, l2. split; [|split; [reflexivity|rewrite serial_find, F2; reflexivity]]. split; [intros n Hn; split; [apply H|apply H2]; exact Hn|]. exists t. auto.
  - right. split; [intros s [_ (t & Q & _)]; congruence|]. right. exists l, l2. split; [reflexivity|rewrite serial_find, F2; reflexivity].
  - exfalso. exact (H2 _ names_serial Es).
Qed.
Lemma serial_fun : forall v s s', client_serial v s -> client_serial v s' -> s = s'.
Proof. intros v s s' [_ (t & E & ->)] [_ (t' & E' & ->)]. congruence. Qed.

Definition issuer_ba (t : bytes) : barray := match t with [] => mk_ba None 0 | _ => ba_of t end.
Lemma issuer_arrives : forall h v t, heap_wf h -> plenty h -> cv_issuer_text v = Some t ->
  exists c h', crypto_getcert_issuer h (Some v) = Ok (c, h') /\ c <> 0 /\ arrived h h' (OArr c) /\ h_barray h' c = Ok (Some (issuer_ba t)).
Proof.
  intros h v t W PL E. unfold crypto_getcert_issuer. rewrite E. destruct t as [|x t].
  - unfold h_new_array. destruct (plenty_alloc h (Struct [P 0; I 0]) W PL) as (a & h1 & E1 & A0 & A & Hn1 & Ca & Cx1 & Ex1 & O1). rewrite E1, (proj2 (N.eqb_neq _ _) A0). exists a, h1. split; [reflexivity|]. split; [exact A0|].
    split; [apply (arr_one h h1 a 0%Z); try assumption; try lia; apply Ex1|]. unfold h_barray. rewrite (proj2 (N.eqb_neq _ _) A0). rewrite (get_ptr_cell _ _ 0%nat _ 0 A0 Ca eq_refl). cbn [obind]. rewrite (get_int_cell _ _ 1%nat _ _ A0 Ca eq_refl). reflexivity.
  - exact (new_array_arrives h (x :: t) W PL).
Qed.

(** *** One request *)
Lemma with_cms_frame : forall A h h' src p rc arr h3 h4 (g : option barray -> outcome (option A)), heap_wf h4 -> decoded_into h src p rc arr h3 h4 -> ext h4 h' ->
  with_cms h' rc arr g = match rfc_decode src with Some d => g (Some (ba_of d)) | None => Ok None end.
Proof.
  intros A h h' src p rc arr h3 h4 g W4 D E. unfold decoded_into in D. destruct (rfc_decode src) as [d|].
  - destruct D as (-> & _ & _ & L & _). apply with_cms_ok. eapply ext_load_buf; eassumption.
  - destruct D as [-> _]. reflexivity.
Qed.

Definition registrar_done (o : ossl) (w : world) (f : registrar_files) (post : post_fn) (peer : option cert_view) (h : heap) (body : bytes) (r : outcome (Z * bytes * heap)) : Prop :=
  exists status response h', r = Ok (status, response, h') /\ ext h h' /\ st (hp_next h) h' [] /\ registrar_answer o w f post peer body (status, response).
Lemma registrar_ret : forall o w f post peer h body h1 l xs status response, st (hp_next h) h1 l -> ext h h1 -> Permutation xs (map fst l) ->
  registrar_answer o w f post peer body (status, response) -> registrar_done o w f post peer h body (obind (cleanup h1 xs) (fun h => Ok (status, response, h))).
Proof.
  intros o w f post peer h body h1 l xs status response S E Pm A. destruct (cleanup_all _ _ _ _ [] S (Forall_nil _) Pm) as (h2 & E2 & S2 & K2 & Hn & Ho). rewrite E2. cbn [obind].
  exists status, response, h2. split; [reflexivity|]. split; [|split; [exact S2|exact A]].
  pose proof E as (W1 & N1 & K1 & O1). split; [eapply st_wf; exact S2|]. split; [lia|]. split; [|congruence]. intros a Ha. rewrite K2 by lia. apply K1. exact Ha.
Qed.
Lemma hold_bind : forall A base h l l1 l2 xs p b n ys (g : heap -> outcome A), st base h l -> Permutation l (l1 ++ (OBuf p, [p]) :: l2) -> Permutation xs (map fst l1) ->
  p <> 0 -> b <> 0 -> hp_cell h p = Live (Struct [P b; I n]) -> hp_cell h b = Freed -> exists k, obind (cleanup h (xs ++ OArr p :: ys)) g = UB k.
Proof.
  intros A base h l l1 l2 xs p b n ys g S P1 P2 P0 B0 Cp Cb. destruct (cleanup_hold base h l l1 l2 xs [] p b n ys S P1 (Forall_nil _) P2 P0 B0 Cp Cb) as [k E]. exists k. rewrite E. reflexivity.
Qed.
Lemma ext_cell : forall h h' a b, heap_wf h -> ext h h' -> hp_cell h a = Live b -> hp_cell h' a = Live b.
Proof. intros h h' a b W E C. rewrite (ext_live h h' a W E); [exact C|eexists; exact C]. Qed.
Lemma signed_bytes : forall o cert key add kvs cms, ossl_sane o -> signed_voucher o cert key add kvs cms -> bytes_ok cms.
Proof. intros o cert key add kvs cms (_ & _ & OS) (v & text & _ & _ & (? & ? & ? & ? & ? & ? & _ & _ & _ & _ & _ & _ & I)). eapply OS. exact I. Qed.
Lemma c_string_no_nul : forall t, ~ In 0 (c_string t).
Proof. induction t as [|c t IH]; intros H; [destruct H|]. cbn [c_string] in H. destruct (c =? 0) eqn:E; [destruct H|]. apply N.eqb_neq in E. destruct H as [Q|H]; [congruence|contradiction]. Qed.
Lemma c_string_cstr : forall t, bytes_ok t -> cstr_ok (c_string t).
Proof. induction t as [|c t IH]; intros B; [constructor|]. inversion B; subst. cbn [c_string]. destruct (c =? 0) eqn:E; [constructor|]. apply N.eqb_neq in E. constructor; [lia|apply IH; assumption]. Qed.
Lemma refuse400 : forall o w f post peer body, ~ client_known peer -> registrar_answer o w f post peer body (400%Z, []).
Proof. intros. right. left. auto. Qed.
Lemma refuse500 : forall o w f post peer body, client_known peer -> ~ registrar_ready w f -> registrar_answer o w f post peer body (500%Z, []).
Proof. intros. right. right. auto. Qed.
Lemma missing_cert : forall rd ts X, missing rd ts -> (exists l, cert_list rd ts l) /\ X -> False.
Proof.
  intros rd ts X (t & Ht & Q) [[[l|] H] _]; cbn [cert_list] in H; [|subst; destruct Ht]. destruct H as [_ H]. induction H as [|t' e ts l [H1 _] H IH]; [destruct Ht|]. destruct Ht as [->|Ht]; [congruence|]. apply IH. exact Ht.
Qed.
Lemma missing_list : forall rd ts l, missing rd ts -> cert_list rd ts l -> False.
Proof. intros rd ts l M H. eapply (missing_cert rd ts True); [exact M|]. split; [exists l; exact H|exact Logic.I]. Qed.
Lemma ba_has_of : forall d p, ba_has (Some (ba_of d)) p -> p = d.
Proof.
  intros d p (b' & rest & Q1 & Q2 & Q3). injection Q1 as <-. cbn [ba_data ba_len ba_of] in *. injection Q2 as ->. unfold blen in Q3. rewrite app_length in Q3. destruct rest; [rewrite app_nil_r; reflexivity|cbn [List.length] in Q3; lia].
Qed.

Lemma registrar_run : forall o w c f post h peer body, ossl_sane o -> world_ok w -> heap_wf h -> plenty h -> registrar_config h c f -> bytes_ok body ->
  (forall v, peer = Some v -> view_ok v) ->
  (registrar_unsafe o w f peer body /\ exists k, registrar_requestvoucher o w c post h peer body = UB k) \/
  (~ registrar_unsafe o w f peer body /\ registrar_done o w f post peer h body (registrar_requestvoucher o w c post h peer body)).
Proof.
  intros o w c f post h peer body OS [WC WK] W PL (Ctl & Cce & Cke & Cve & Cst & Cad) B Hv.
  unfold registrar_requestvoucher. rewrite c_str_ok. cbn [obind]. cbv zeta.
  assert (BYE : ~ client_known peer -> registrar_done o w f post peer h body (Ok (400%Z, [], h))).
  { intros Hs. exists 400%Z, [], h. split; [reflexivity|]. split; [apply ext_refl; exact W|]. split; [apply st_init; exact W|]. apply refuse400. exact Hs. }
  destruct peer as [v|].
  2:{ right. assert (NU : ~ registrar_unsafe o w f None body) by (intros (v & s & Q & _); discriminate). split; [exact NU|]. apply BYE. intros (v & s & Q & _). discriminate. }
  specialize (Hv v eq_refl). destruct Hv as (V1 & V2 & V3 & V4).
  destruct (meta_cases v) as [(s & iss & sub & CS & Em & Es)|[NS Em]].
  2:{ right. assert (NU : ~ registrar_unsafe o w f (Some v) body) by (intros (v' & s & Q & CS & _); injection Q as <-; exact (NS _ CS)). split; [exact NU|].
      destruct Em as [Em|(iss & sub & Em & Es)]; rewrite Em; cbn [obind]; [|rewrite Es]; apply BYE; intros (v' & s & Q & CS & _); injection Q as <-; exact (NS _ CS). }
  rewrite Em. cbn [obind]. rewrite Es.
  destruct (cv_issuer_text v) as [it|] eqn:Ei.
  2:{ unfold crypto_getcert_issuer. rewrite Ei. cbn [obind N.eqb]. right. assert (NU : ~ registrar_unsafe o w f (Some v) body) by (intros (v' & s' & Q & _ & Q2 & _); injection Q as <-; congruence). split; [exact NU|]. apply BYE. intros (v' & s' & Q & _ & Q2). injection Q as <-. congruence. }
  assert (KN : client_known (Some v)) by (exists v, s; split; [reflexivity|]; split; [exact CS|congruence]).
  clear BYE. pose proof (st_init h W) as S0. set (base := hp_next h) in *.
  destruct (issuer_arrives h v it W PL Ei) as (issuer & h0 & E0 & I0 & A0 & B0). rewrite E0. cbn [obind]. rewrite (proj2 (N.eqb_neq _ _) I0).
  pose proof (proj1 A0) as Ex0. destruct (arrived_list _ _ _ _ _ S0 A0) as [Fi Si]. pose proof (proj1 Ex0) as W0. pose proof (ext_plenty _ _ Ex0 PL) as PL0.
  destruct (decode_into h0 (c_string body) W0 PL0 (c_string_bytes _ B)) as (pcms & hx & rc & arr & hy & hz & h1 & Q1 & P0 & _ & Q2 & Q3 & Q4 & D). rewrite Q1, (proj2 (N.eqb_neq _ _) P0), Q2. cbn [obind]. rewrite Q3. cbn [obind]. rewrite Q4. cbn [obind].
  clear Q1 Q2 Q3 Q4.
  assert (UNS : bad_padding (c_string body) -> registrar_unsafe o w f (Some v) body) by (intros Q; exists v, s; split; [reflexivity|]; split; [exact CS|]; split; [congruence|left; exact Q]).
  assert (BP : bad_padding (c_string body) <-> rfc_decode (c_string body) = None /\ filter b64_relevant (c_string body) <> []) by apply decode_bad.
  assert (CASES : (~ bad_padding (c_string body) /\ arrived h0 h1 (OArr pcms)) \/
    (bad_padding (c_string body) /\ arr <> 0 /\ ext h0 h1 /\ st (hp_next h0) h1 [(OBuf pcms, [pcms])] /\ hp_cell h1 pcms = Live (Struct [P arr; I (-1)]) /\ hp_cell h1 arr = Freed)).
  { pose proof D as D'. unfold decoded_into in D'. rewrite BP. destruct (rfc_decode (c_string body)) as [d|]; [left; split; [intros [Q _]; discriminate|apply D']|].
    destruct (filter b64_relevant (c_string body)); [left; split; [intros [_ Q]; congruence|apply D']|]. right. split; [split; [reflexivity|discriminate]|]. tauto. }
  destruct CASES as [[NB A1]|(BAD & AR0 & Ex01 & Sp & Cp & Ca)].
  - (* GOOD *)
    pose proof (ext_trans _ _ _ Ex0 (proj1 A1)) as Ex1. destruct (arrived_list _ _ _ _ _ Si A1) as [Fp S1].
    pose proof (proj1 Ex1) as W1. pose proof (ext_plenty _ _ Ex1 PL) as PL1.
    destruct (w_now w) as [now|] eqn:Enow.
    2:{ right. split; [intros (v' & s' & _ & _ & _ & [Q|(m & ? & ? & ? & ? & ? & ? & pvr & Q & _)]); [contradiction|congruence]|]. eapply registrar_ret; [exact S1|exact Ex1|perm|apply refuse500; [exact KN|intros (? & ? & ? & ? & _); congruence]]. }
    pose proof (cert_arrives (w_cert w) h1 _ _ W1 PL1 (ext_string _ _ _ _ W Ex1 Ctl)) as D2. unfold h_file_to_cert, h_file_to_keybuf. destruct (w_cert w (rf_tls f)) as [dtls|] eqn:Eltls.
    2:{ rewrite D2. cbn [obind N.eqb]. right. split; [intros (v' & s' & _ & _ & _ & [Q|(m & ? & ? & ? & ? & ? & ? & pvr & _ & _ & Q & _)]); [contradiction|congruence]|]. eapply registrar_ret; [exact S1|exact Ex1|perm|apply refuse500; [exact KN|intros (? & ? & ? & ? & _); congruence]]. }
    destruct D2 as (tls & h2 & E2 & tls0 & A2 & B2). rewrite E2. cbn [obind]. rewrite (proj2 (N.eqb_neq _ _) tls0). pose proof (ext_trans _ _ _ Ex1 (proj1 A2)) as Ex2. destruct (arrived_list _ _ _ _ _ S1 A2) as [Ftls S2]. pose proof (proj1 Ex2) as W2. pose proof (ext_plenty _ _ Ex2 PL) as PL2.
    pose proof (cert_arrives (w_cert w) h2 _ _ W2 PL2 (ext_string _ _ _ _ W Ex2 Cce)) as D3. destruct (w_cert w (rf_cert f)) as [dcert|] eqn:Elcert.
    2:{ rewrite D3. cbn [obind N.eqb]. right. split; [intros (v' & s' & _ & _ & _ & [Q|(m & ? & ? & ? & ? & ? & ? & pvr & _ & _ & _ & Q & _)]); [contradiction|congruence]|]. eapply registrar_ret; [exact S2|exact Ex2|perm|apply refuse500; [exact KN|intros (? & ? & ? & ? & _); congruence]]. }
    destruct D3 as (cert & h3 & E3 & cert0 & A3 & B3). rewrite E3. cbn [obind]. rewrite (proj2 (N.eqb_neq _ _) cert0). pose proof (ext_trans _ _ _ Ex2 (proj1 A3)) as Ex3. destruct (arrived_list _ _ _ _ _ S2 A3) as [Fcert S3]. pose proof (proj1 Ex3) as W3. pose proof (ext_plenty _ _ Ex3 PL) as PL3.
    pose proof (cert_arrives (w_key w) h3 _ _ W3 PL3 (ext_string _ _ _ _ W Ex3 Cke)) as D4. destruct (w_key w (rf_key f)) as [dkey|] eqn:Elkey.
    2:{ rewrite D4. cbn [obind N.eqb]. right. split; [intros (v' & s' & _ & _ & _ & [Q|(m & ? & ? & ? & ? & ? & ? & pvr & _ & _ & _ & _ & Q & _)]); [contradiction|congruence]|]. eapply registrar_ret; [exact S3|exact Ex3|perm|apply refuse500; [exact KN|intros (? & ? & ? & ? & _); congruence]]. }
    destruct D4 as (key & h4 & E4 & key0 & A4 & B4). rewrite E4. cbn [obind]. rewrite (proj2 (N.eqb_neq _ _) key0). pose proof (ext_trans _ _ _ Ex3 (proj1 A4)) as Ex4. destruct (arrived_list _ _ _ _ _ S3 A4) as [Fkey S4]. pose proof (proj1 Ex4) as W4. pose proof (ext_plenty _ _ Ex4 PL) as PL4.
    destruct (list_arrives (w_cert w) h4 _ _ W4 PL4 (ext_path_list _ _ _ _ W Ex4 Cve)) as [(pv & h5 & lpv & E5 & A5 & B5 & CLpv & NMpv)|(pv & h5 & E5 & R0 & Exf & Sf & Cf & Mi)]; rewrite E5; cbn [obind].
    2:{ change ((-1 <? 0)%Z) with true. cbv iota. pose proof (ext_trans _ _ _ Ex4 Exf) as Ex5. pose proof (st_acquire _ _ _ _ _ S4 Exf Sf) as S5. cbn [app] in S5. right. split; [intros (v' & s' & _ & _ & _ & [Q|(m & ? & ? & ? & ? & ? & ? & pvr & _ & _ & _ & _ & _ & Q & _)]); [contradiction|exact (missing_list _ _ _ Mi Q)]|]. eapply registrar_ret; [exact S5|exact Ex5|perm|apply refuse500; [exact KN|intros (_ & _ & _ & _ & RL); rewrite Forall_forall in RL; eapply RL; [|exact Mi]; cbn [In]; auto]]. }
    change ((0 <? 0)%Z) with false. cbv iota. pose proof (ext_trans _ _ _ Ex4 (proj1 A5)) as Ex5. destruct (arrived_list _ _ _ _ _ S4 A5) as [Fpv S5]. pose proof (proj1 Ex5) as W5. pose proof (ext_plenty _ _ Ex5 PL) as PL5.
    destruct (list_arrives (w_cert w) h5 _ _ W5 PL5 (ext_path_list _ _ _ _ W Ex5 Cst)) as [(ps & h6 & lps & E6 & A6 & B6 & CLps & NMps)|(ps & h6 & E6 & R0 & Exf & Sf & Cf & Mi)]; rewrite E6; cbn [obind].
    2:{ change ((-1 <? 0)%Z) with true. cbv iota. pose proof (ext_trans _ _ _ Ex5 Exf) as Ex6. pose proof (st_acquire _ _ _ _ _ S5 Exf Sf) as S6. cbn [app] in S6. right. split; [intros (v' & s' & _ & _ & _ & [Q|(m & ? & ? & ? & ? & ? & ? & pvr & _ & _ & _ & _ & _ & _ & Q & _)]); [contradiction|exact (missing_list _ _ _ Mi Q)]|]. eapply registrar_ret; [exact S6|exact Ex6|perm|apply refuse500; [exact KN|intros (_ & _ & _ & _ & RL); rewrite Forall_forall in RL; eapply RL; [|exact Mi]; cbn [In]; auto]]. }
    change ((0 <? 0)%Z) with false. cbv iota. pose proof (ext_trans _ _ _ Ex5 (proj1 A6)) as Ex6. destruct (arrived_list _ _ _ _ _ S5 A6) as [Fps S6]. pose proof (proj1 Ex6) as W6. pose proof (ext_plenty _ _ Ex6 PL) as PL6.
    destruct (list_arrives (w_cert w) h6 _ _ W6 PL6 (ext_path_list _ _ _ _ W Ex6 Cad)) as [(ad & h7 & lad & E7 & A7 & B7 & CLad & NMad)|(ad & h7 & E7 & R0 & Exf & Sf & Cf & Mi)]; rewrite E7; cbn [obind].
    2:{ change ((-1 <? 0)%Z) with true. cbv iota. pose proof (ext_trans _ _ _ Ex6 Exf) as Ex7. pose proof (st_acquire _ _ _ _ _ S6 Exf Sf) as S7. cbn [app] in S7. right. split; [intros (v' & s' & _ & _ & _ & [Q|(m & ? & ? & ? & ? & ? & ? & pvr & _ & _ & _ & _ & _ & _ & _ & Q & _)]); [contradiction|exact (missing_list _ _ _ Mi Q)]|]. eapply registrar_ret; [exact S7|exact Ex7|perm|apply refuse500; [exact KN|intros (_ & _ & _ & _ & RL); rewrite Forall_forall in RL; eapply RL; [|exact Mi]; cbn [In]; auto]]. }
    change ((0 <? 0)%Z) with false. cbv iota. pose proof (ext_trans _ _ _ Ex6 (proj1 A7)) as Ex7. destruct (arrived_list _ _ _ _ _ S6 A7) as [Fad S7]. pose proof (proj1 Ex7) as W7. pose proof (ext_plenty _ _ Ex7 PL) as PL7.
    pose proof (ext_trans _ _ _ (proj1 A6) (proj1 A7)) as X57. pose proof (ext_trans _ _ _ (proj1 A5) X57) as X47. pose proof (ext_trans _ _ _ (proj1 A4) X47) as X37. pose proof (ext_trans _ _ _ (proj1 A3) X37) as X27. pose proof (ext_trans _ _ _ (proj1 A2) X27) as X17.
    assert (X07 : ext h0 h7) by (eapply ext_trans; [|exact X17]; apply A1).
    rewrite (ext_barray _ _ _ _ W0 X07 B0). cbn [obind]. rewrite (ext_barray _ _ _ _ W2 X27 B2). cbn [obind]. rewrite (ext_barray _ _ _ _ W3 X37 B3). cbn [obind]. rewrite (ext_barray _ _ _ _ W4 X47 B4). cbn [obind].
    rewrite (ext_certlist _ _ _ _ W5 X57 B5). cbn [obind]. rewrite (ext_certlist _ _ _ _ W6 (proj1 A7) B6). cbn [obind]. rewrite B7. cbn [obind].
    rewrite (with_cms_frame _ _ _ _ _ _ _ _ _ _ W1 D X17). cbv beta.
    assert (NOPOST : (forall m cms, rfc_decode (c_string body) = Some m -> registrar_posts o w f v m cms -> False) -> registrar_answer o w f post (Some v) body (400%Z, [])).
    { intros NP. right. left. split; [reflexivity|]. right. split.
      - split; [congruence|]. split; [congruence|]. split; [congruence|]. split; [congruence|]. apply Forall_cons; [assumption|]. apply Forall_cons; [assumption|]. apply Forall_cons; [assumption|apply Forall_nil].
      - intros (v' & m & cms & Q & Q1 & Q2). injection Q as <-. exact (NP _ _ Q1 Q2). }
    destruct (rfc_decode (c_string body)) as [m|] eqn:Ed.
    2:{ cbn [obind]. right. split; [intros (v' & s' & _ & _ & _ & [Q|(m & ? & ? & ? & ? & ? & ? & pvr & _ & Q & _)]); [contradiction|congruence]|]. eapply registrar_ret; [exact S7|exact Ex7|perm|apply NOPOST; intros m cms Q; congruence]. }
    pose proof (rfc_decode_bytes _ _ Ed) as Bm.
    assert (BI : ba_bytes (Some (issuer_ba it))) by (destruct it as [|x it]; [reflexivity|apply ba_bytes_of; apply V3; reflexivity]).
    assert (SOK : forall s0, Some s = Some s0 -> cstr_ok s0) by (intros s0 Q; injection Q as <-; destruct CS as [_ (t & Q & ->)]; apply c_string_cstr; eapply V2; exact Q).
    assert (SNZ : forall s0, Some s = Some s0 -> ~ In 0 s0) by (intros s0 Q; injection Q as <-; destruct CS as [_ (t & Q & ->)]; apply c_string_no_nul).
    pose proof (fun k => registrar_crash o (Some (ba_of m)) now (Some s) (Some (issuer_ba it)) (Some (ba_of dtls)) (Some (ba_of dcert)) (Some (ba_of dkey)) lpv lps lad k OS SOK (ba_bytes_of _ Bm) BI (ba_bytes_of _ (WC _ _ Eltls)) (ba_bytes_of _ (WC _ _ Elcert)) (ba_bytes_of _ (WK _ _ Elkey))) as CRASH.
    destruct (sign_voucher_request o (Some (ba_of m)) (Some now) (Some s) (Some (issuer_ba it)) (Some (ba_of dtls)) (Some (ba_of dcert)) (Some (ba_of dkey)) lpv lps lad) as [v1|k1] eqn:Ev.
    2:{ left. destruct (proj1 (CRASH k1) eq_refl) as (_ & _ & _ & pc & pvr & Q & Q1 & Q2). injection Q as <-. split; [|exists k1; reflexivity].
        exists v, s. split; [reflexivity|]. split; [exact CS|]. split; [congruence|]. right. exists m, dtls, dcert, dkey, lpv, lps, lad, pvr. split; [congruence|]. repeat (split; [assumption || reflexivity|]). exact Q2. }
    cbn [obind]. right. split.
    { intros (v' & s' & _ & _ & _ & [Q|(m' & ? & ? & ? & vc' & vs' & ad' & pvr & _ & Q & _ & _ & _ & L1 & L2 & L3 & Q1 & Q2)]); [contradiction|]. rewrite Ed in Q. injection Q as <-.
      rewrite <- (cert_list_fun _ _ _ _ CLpv L1), <- (cert_list_fun _ _ _ _ CLps L2) in Q1.
      assert (QQ : Ok v1 = UB NullDeref) by (apply (proj2 (CRASH NullDeref)); split; [reflexivity|]; split; [discriminate|]; split; [discriminate|]; exists (ba_of m), pvr; auto). discriminate QQ. }
    clear CRASH. destruct v1 as [cms|].
    2:{ eapply registrar_ret; [exact S7|exact Ex7|perm|apply NOPOST; intros m' cms' Q RP].
        injection Q as <-. destruct RP as (t & s0 & i & tl & ce & ke & vc & vs & ad' & pvr & prox & n & R1 & R2 & R3 & R0 & R4 & R5 & R6 & R7 & R8 & R9 & R10 & R11 & R12 & R13 & R14 & R15 & R16).
        rewrite (serial_fun _ _ _ R2 CS) in *. rewrite Enow in R1. injection R1 as <-. rewrite Ei in R3. injection R3 as <-. rewrite Eltls in R4. injection R4 as <-. rewrite Elcert in R5. injection R5 as <-. rewrite Elkey in R6. injection R6 as <-.
        rewrite <- (cert_list_fun _ _ _ _ CLpv R7), <- (cert_list_fun _ _ _ _ CLps R8) in R10. rewrite <- (cert_list_fun _ _ _ _ CLad R9) in R16.
        assert (QQ : Ok (@None bytes) = Ok (Some cms')); [|discriminate QQ]. rewrite <- Ev. apply registrar_iff; [exact OS|exact SOK|].
        exists (ba_of m), pvr, now, s, it, (ba_of dtls), m, prox, n. repeat (split; [reflexivity || assumption|]). split; [destruct it; [congruence|apply ba_of_has]|]. split; [apply ba_of_has|exact R16]. }
    assert (RP : registrar_posts o w f v m cms).
    { destruct (registrar_request_says _ _ _ _ _ _ _ _ _ _ _ _ OS SNZ Ev) as (pc & pvr & t & s0 & i & rc0 & p & prox & n & R1 & R2 & R3 & R4 & R5 & R6 & R7 & R8 & R9 & R10 & R11 & R12 & R13).
      injection R1 as <-. injection R2 as <-. injection R3 as <-. injection R4 as <-.
      assert (p = m) as -> by (eapply ba_has_of; exact R12).
      assert (i = it) as -> by (destruct it as [|x it]; [destruct R11 as (b' & rest & Q1 & Q2 & _); injection Q1 as <-; discriminate Q2|eapply ba_has_of; exact R11]).
      exists now, s, it, dtls, dcert, dkey, lpv, lps, lad, pvr, prox, n. split; [exact Enow|]. split; [exact CS|]. split; [exact Ei|]. split; [intros ->; destruct R11 as (b' & rest & Q1 & Q2 & _); injection Q1 as <-; discriminate Q2|]. repeat (split; [assumption|]). assumption. }
    assert (BV : bytes_ok cms). { destruct RP as (? & ? & ? & ? & ? & ? & ? & ? & ? & ? & ? & ? & _ & _ & _ & _ & _ & _ & _ & _ & _ & _ & _ & _ & _ & _ & _ & _ & Q). eapply signed_bytes; eassumption. }
    destruct (new_array_arrives h7 cms W7 PL7) as (vo & h8 & E8 & V0 & A8 & B8). rewrite E8. cbn [obind]. rewrite (proj2 (N.eqb_neq _ _) V0).
    destruct (arrived_list _ _ _ _ _ S7 A8) as [Fvo S8]. pose proof (ext_trans _ _ _ Ex7 (proj1 A8)) as Ex8. pose proof (proj1 Ex8) as W8. pose proof (ext_plenty _ _ Ex8 PL) as PL8.
    unfold post_voucher_request. destruct (encode_step h8 vo cms W8 PL8 BV B8) as (h9 & E9 & Xf & Sf). rewrite E9. cbn [obind]. clear E0 E2 E3 E4 E5 E6 E7 E8 E9.
    pose proof (ext_trans _ _ _ Ex8 Xf) as Ex9. pose proof (st_acquire _ _ _ _ _ S8 Xf Sf) as S9. cbn [app] in S9.
    destruct (blen cms <? SIZE_MAX / 4) eqn:Lv.
    2:{ cbn [obind]. change ((-1 <? 0)%Z) with true. cbv iota. eapply registrar_ret; [exact S9|exact Ex9|perm|]. left. exists v, m, cms. repeat (split; [assumption || reflexivity|]). right. right. split; [reflexivity|]. split; [right; lia|reflexivity]. }
    destruct (post (rfc_encode cms)) as [status response] eqn:Ep. destruct (Z.ltb_spec status 0) as [Ls|Ls]; cbn [obind].
    { change ((-1 <? 0)%Z) with true. cbv iota. eapply registrar_ret; [exact S9|exact Ex9|perm|]. left. exists v, m, cms. repeat (split; [assumption || reflexivity|]). rewrite Ep. right. right. split; [reflexivity|]. split; [left; exact Ls|reflexivity]. }
    destruct (Z.leb_spec 400 status) as [Lt|Lt]; cbn [obind].
    { change ((400 <? 0)%Z) with false. cbv iota. eapply registrar_ret; [exact S9|exact Ex9|perm|]. left. exists v, m, cms. repeat (split; [assumption || reflexivity|]). rewrite Ep. right. left. split; [reflexivity|]. split; [split; [lia|exact Lt]|reflexivity]. }
    change ((0 <? 0)%Z) with false. cbv iota. eapply registrar_ret; [exact S9|exact Ex9|perm|]. left. exists v, m, cms. repeat (split; [assumption || reflexivity|]). rewrite Ep. left. split; [reflexivity|]. split; [split; [lia|cbn [fst]; lia]|reflexivity].
  - (* BAD *)
    left. split; [exact (UNS BAD)|]. pose proof (ext_trans _ _ _ Ex0 Ex01) as Ex1. pose proof (st_acquire _ _ _ _ _ Si Ex01 Sp) as S1. cbn [app] in S1.
    pose proof (proj1 Ex1) as W1. pose proof (ext_plenty _ _ Ex1 PL) as PL1.
    destruct (w_now w) as [now|] eqn:Enow.
    2:{ eapply (hold_bind _ _ _ _ [] [(OArr issuer, Fi)] [] pcms arr (-1)%Z [OArr issuer]); [exact S1|perm|perm|exact P0|exact AR0|exact Cp|exact Ca]. }
    pose proof (cert_arrives (w_cert w) h1 _ _ W1 PL1 (ext_string _ _ _ _ W Ex1 Ctl)) as D2. unfold h_file_to_cert, h_file_to_keybuf. destruct (w_cert w (rf_tls f)) as [dtls|] eqn:Eltls.
    2:{ rewrite D2. cbn [obind N.eqb]. eapply (hold_bind _ _ _ _ [] [(OArr issuer, Fi)] [] pcms arr (-1)%Z [OArr issuer]); [exact S1|perm|perm|exact P0|exact AR0|exact Cp|exact Ca]. }
    destruct D2 as (tls & h2 & E2 & tls0 & A2 & B2). rewrite E2. cbn [obind]. rewrite (proj2 (N.eqb_neq _ _) tls0). pose proof (ext_trans _ _ _ Ex1 (proj1 A2)) as Ex2. destruct (arrived_list _ _ _ _ _ S1 A2) as [Ftls S2]. pose proof (proj1 Ex2) as W2. pose proof (ext_plenty _ _ Ex2 PL) as PL2.
    apply (ext_freed _ _ _ W1 (proj1 A2)) in Ca. apply (ext_cell _ _ _ _ W1 (proj1 A2)) in Cp.
    pose proof (cert_arrives (w_cert w) h2 _ _ W2 PL2 (ext_string _ _ _ _ W Ex2 Cce)) as D3. destruct (w_cert w (rf_cert f)) as [dcert|] eqn:Elcert.
    2:{ rewrite D3. cbn [obind N.eqb]. eapply (hold_bind _ _ _ _ [(OArr tls, Ftls)] [(OArr issuer, Fi)] [OArr tls] pcms arr (-1)%Z [OArr issuer]); [exact S2|perm|perm|exact P0|exact AR0|exact Cp|exact Ca]. }
    destruct D3 as (cert & h3 & E3 & cert0 & A3 & B3). rewrite E3. cbn [obind]. rewrite (proj2 (N.eqb_neq _ _) cert0). pose proof (ext_trans _ _ _ Ex2 (proj1 A3)) as Ex3. destruct (arrived_list _ _ _ _ _ S2 A3) as [Fcert S3]. pose proof (proj1 Ex3) as W3. pose proof (ext_plenty _ _ Ex3 PL) as PL3.
    apply (ext_freed _ _ _ W2 (proj1 A3)) in Ca. apply (ext_cell _ _ _ _ W2 (proj1 A3)) in Cp.
    pose proof (cert_arrives (w_key w) h3 _ _ W3 PL3 (ext_string _ _ _ _ W Ex3 Cke)) as D4. destruct (w_key w (rf_key f)) as [dkey|] eqn:Elkey.
    2:{ rewrite D4. cbn [obind N.eqb]. eapply (hold_bind _ _ _ _ [(OArr cert, Fcert); (OArr tls, Ftls)] [(OArr issuer, Fi)] [OArr cert; OArr tls] pcms arr (-1)%Z [OArr issuer]); [exact S3|perm|perm|exact P0|exact AR0|exact Cp|exact Ca]. }
    destruct D4 as (key & h4 & E4 & key0 & A4 & B4). rewrite E4. cbn [obind]. rewrite (proj2 (N.eqb_neq _ _) key0). pose proof (ext_trans _ _ _ Ex3 (proj1 A4)) as Ex4. destruct (arrived_list _ _ _ _ _ S3 A4) as [Fkey S4]. pose proof (proj1 Ex4) as W4. pose proof (ext_plenty _ _ Ex4 PL) as PL4.
    apply (ext_freed _ _ _ W3 (proj1 A4)) in Ca. apply (ext_cell _ _ _ _ W3 (proj1 A4)) in Cp.
    destruct (list_arrives (w_cert w) h4 _ _ W4 PL4 (ext_path_list _ _ _ _ W Ex4 Cve)) as [(pv & h5 & lpv & E5 & A5 & B5 & CLpv & NMpv)|(pv & h5 & E5 & R0 & Exf & Sf & Cf & Mi)]; rewrite E5; cbn [obind].
    2:{ change ((-1 <? 0)%Z) with true. cbv iota. pose proof (ext_trans _ _ _ Ex4 Exf) as Ex5. pose proof (st_acquire _ _ _ _ _ S4 Exf Sf) as S5. cbn [app] in S5. apply (ext_freed _ _ _ W4 Exf) in Ca. apply (ext_cell _ _ _ _ W4 Exf) in Cp. eapply (hold_bind _ _ _ _ [(OArr key, Fkey); (OArr cert, Fcert); (OArr tls, Ftls)] [(OArr issuer, Fi)] [OArr key; OArr cert; OArr tls] pcms arr (-1)%Z [OArr issuer]); [exact S5|perm|perm|exact P0|exact AR0|exact Cp|exact Ca]. }
    change ((0 <? 0)%Z) with false. cbv iota. pose proof (ext_trans _ _ _ Ex4 (proj1 A5)) as Ex5. destruct (arrived_list _ _ _ _ _ S4 A5) as [Fpv S5]. pose proof (proj1 Ex5) as W5. pose proof (ext_plenty _ _ Ex5 PL) as PL5.
    apply (ext_freed _ _ _ W4 (proj1 A5)) in Ca. apply (ext_cell _ _ _ _ W4 (proj1 A5)) in Cp.
    destruct (list_arrives (w_cert w) h5 _ _ W5 PL5 (ext_path_list _ _ _ _ W Ex5 Cst)) as [(ps & h6 & lps & E6 & A6 & B6 & CLps & NMps)|(ps & h6 & E6 & R0 & Exf & Sf & Cf & Mi)]; rewrite E6; cbn [obind].
    2:{ change ((-1 <? 0)%Z) with true. cbv iota. pose proof (ext_trans _ _ _ Ex5 Exf) as Ex6. pose proof (st_acquire _ _ _ _ _ S5 Exf Sf) as S6. cbn [app] in S6. apply (ext_freed _ _ _ W5 Exf) in Ca. apply (ext_cell _ _ _ _ W5 Exf) in Cp. eapply (hold_bind _ _ _ _ [(OList pv, Fpv); (OArr key, Fkey); (OArr cert, Fcert); (OArr tls, Ftls)] [(OArr issuer, Fi)] [OList pv; OArr key; OArr cert; OArr tls] pcms arr (-1)%Z [OArr issuer]); [exact S6|perm|perm|exact P0|exact AR0|exact Cp|exact Ca]. }
    change ((0 <? 0)%Z) with false. cbv iota. pose proof (ext_trans _ _ _ Ex5 (proj1 A6)) as Ex6. destruct (arrived_list _ _ _ _ _ S5 A6) as [Fps S6]. pose proof (proj1 Ex6) as W6. pose proof (ext_plenty _ _ Ex6 PL) as PL6.
    apply (ext_freed _ _ _ W5 (proj1 A6)) in Ca. apply (ext_cell _ _ _ _ W5 (proj1 A6)) in Cp.
    destruct (list_arrives (w_cert w) h6 _ _ W6 PL6 (ext_path_list _ _ _ _ W Ex6 Cad)) as [(ad & h7 & lad & E7 & A7 & B7 & CLad & NMad)|(ad & h7 & E7 & R0 & Exf & Sf & Cf & Mi)]; rewrite E7; cbn [obind].
    2:{ change ((-1 <? 0)%Z) with true. cbv iota. pose proof (ext_trans _ _ _ Ex6 Exf) as Ex7. pose proof (st_acquire _ _ _ _ _ S6 Exf Sf) as S7. cbn [app] in S7. apply (ext_freed _ _ _ W6 Exf) in Ca. apply (ext_cell _ _ _ _ W6 Exf) in Cp. eapply (hold_bind _ _ _ _ [(OList ps, Fps); (OList pv, Fpv); (OArr key, Fkey); (OArr cert, Fcert); (OArr tls, Ftls)] [(OArr issuer, Fi)] [OList ps; OList pv; OArr key; OArr cert; OArr tls] pcms arr (-1)%Z [OArr issuer]); [exact S7|perm|perm|exact P0|exact AR0|exact Cp|exact Ca]. }
    change ((0 <? 0)%Z) with false. cbv iota. pose proof (ext_trans _ _ _ Ex6 (proj1 A7)) as Ex7. destruct (arrived_list _ _ _ _ _ S6 A7) as [Fad S7]. pose proof (proj1 Ex7) as W7. pose proof (ext_plenty _ _ Ex7 PL) as PL7.
    apply (ext_freed _ _ _ W6 (proj1 A7)) in Ca. apply (ext_cell _ _ _ _ W6 (proj1 A7)) in Cp.
    pose proof (ext_trans _ _ _ (proj1 A6) (proj1 A7)) as X57. pose proof (ext_trans _ _ _ (proj1 A5) X57) as X47. pose proof (ext_trans _ _ _ (proj1 A4) X47) as X37. pose proof (ext_trans _ _ _ (proj1 A3) X37) as X27. pose proof (ext_trans _ _ _ (proj1 A2) X27) as X17.
    assert (X07 : ext h0 h7) by (eapply ext_trans; [|exact X17]; exact Ex01).
    rewrite (ext_barray _ _ _ _ W0 X07 B0). cbn [obind]. rewrite (ext_barray _ _ _ _ W2 X27 B2). cbn [obind]. rewrite (ext_barray _ _ _ _ W3 X37 B3). cbn [obind]. rewrite (ext_barray _ _ _ _ W4 X47 B4). cbn [obind].
    rewrite (ext_certlist _ _ _ _ W5 X57 B5). cbn [obind]. rewrite (ext_certlist _ _ _ _ W6 (proj1 A7) B6). cbn [obind]. rewrite B7. cbn [obind].
    rewrite (with_cms_frame _ _ _ _ _ _ _ _ _ _ W1 D X17). cbv beta.
    rewrite (proj1 (proj1 BP BAD)). cbn [obind]. eapply (hold_bind _ _ _ _ [(OList ad, Fad); (OList ps, Fps); (OList pv, Fpv); (OArr key, Fkey); (OArr cert, Fcert); (OArr tls, Ftls)] [(OArr issuer, Fi)] [OList ad; OList ps; OList pv; OArr key; OArr cert; OArr tls] pcms arr (-1)%Z [OArr issuer]); [exact S7|perm|perm|exact P0|exact AR0|exact Cp|exact Ca].
Qed.
