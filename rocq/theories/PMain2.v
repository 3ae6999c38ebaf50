(** Proofs about the program: the configuration in memory. *)
From Coq Require Import Permutation.
From Verif Require Import Base PBase MOs MBase64 MSerialize MVoucher MCrypto MRequest MHeap MArray MVoucherHeap MConfig MHandlers MLog MSignCert MMain SBase64 SHeap SArray SConfig SVoucher SRequest SHandlers SPledge SLog SSignCert SMain
  PBase64 PHeap PArray PBlocks PConfig PConfigMore PCertFiles POwn PAcquire PAcquire2.
Open Scope N_scope.

(** *** Loading *)
Lemma plenty_oomed : forall h, plenty h -> ~ oomed h.
Proof. intros h PL (a & _ & Q). rewrite PL in Q. discriminate. Qed.
Lemma loaded_cst : forall m h cfg, heap_wf h -> plenty h -> ini_ok m -> zero_cfg h cfg ->
  exists h1 mm foot, load_brski_config true m h cfg = Ok (0%Z, h1) /\ PConfig.ext (hp_next h) cfg h h1 /\ cst (hp_next h) h1 cfg mm foot (fun _ => False) /\
    loaded m pledge_part mm /\ loaded m registrar_part mm /\ loaded m masa_part mm.
Proof.
  intros ini h cfg W PL OK Z. unfold load_brski_config. cbn [negb]. pose proof (plenty_oomed h PL) as NO.
  pose proof (cst_start h cfg W Z) as C0. destruct parts_ok as (P1 & P2 & P3).
  destruct (load_part_ok pledge_part ini _ _ _ _ _ _ P1 OK C0) as [(k & E1 & Hk & Q1)|(rc & h1 & m1 & f1 & E1 & X1 & C1 & O1 & R1)]; [reflexivity|contradiction|]; rewrite E1; cbn [obind].
  assert (Z2 : forall i, In i (fields registrar_part) -> m1 i = SNull) by (intros i Hi; apply O1; pose proof (parts_disjoint i); tauto).
  assert (Z3 : forall i, In i (fields masa_part) -> m1 i = SNull) by (intros i Hi; apply O1; pose proof (parts_disjoint i); tauto).
  destruct R1 as [(_ & Q1 & _)|(-> & L1)]; [contradiction|]. change ((0 <? 0)%Z) with false. cbv iota.
  destruct (load_part_ok registrar_part ini _ _ _ _ _ _ P2 OK C1 Z2) as [(k & E2 & Hk & Q2)|(rc & h2 & m2 & f2 & E2 & X2 & C2 & O2 & R2)]; [destruct NO; exact (oomed_ext _ _ _ _ X1 Q2)|]; rewrite E2; cbn [obind].
  assert (X02 : PConfig.ext (hp_next h) cfg h h2) by (eapply PConfig.ext_trans; eassumption).
  assert (Z3' : forall i, In i (fields masa_part) -> m2 i = SNull). { intros i Hi. rewrite O2; [apply Z3; exact Hi|]. pose proof (parts_disjoint i); tauto. }
  destruct R2 as [(_ & Q2 & _)|(-> & L2)]; [destruct NO; exact (oomed_ext _ _ _ _ X1 Q2)|]. change ((0 <? 0)%Z) with false. cbv iota.
  destruct (load_part_ok masa_part ini _ _ _ _ _ _ P3 OK C2 Z3') as [(k & E3 & Hk & Q3)|(rc & h3 & m3 & f3 & E3 & X3 & C3 & O3 & R3)]; [destruct NO; exact (oomed_ext _ _ _ _ X02 Q3)|]; rewrite E3; cbn [obind].
  destruct R3 as [(_ & Q3 & _)|(-> & L3)]; [destruct NO; exact (oomed_ext _ _ _ _ X02 Q3)|]. change ((0 <? 0)%Z) with false. cbv iota.
  exists h3, m3, f3. split; [reflexivity|]. split; [eapply PConfig.ext_trans; eassumption|]. split; [exact C3|]. split; [|split; [|exact L3]].
  - eapply loaded_ext; [exact L1|]. intros i Hi. rewrite O3 by (pose proof (parts_disjoint i); tauto). apply O2. pose proof (parts_disjoint i); tauto.
  - eapply loaded_ext; [exact L2|]. intros i Hi. apply O3. pose proof (parts_disjoint i); tauto.
Qed.

(** The configuration [cfg] says what the file [m] says, with the address [a] of
    the registrar. *)
Definition address_slot (x : option bytes) : slot := match x with None => SNull | Some t => SStr t end.
Definition configured (m : ini) (a : bytes) (h : heap) (cfg : N) : Prop :=
  heap_wf h /\ plenty h /\ exists base mm foot (T : N -> Prop), cst base h cfg mm foot T /\ loaded m pledge_part mm /\ tidy registrar_part mm /\ tidy masa_part mm /\
    mm 11%nat = address_slot (address_of m a) /\ mm 12%nat = address_slot (registrar_setting m (s2b "tlsCertPath")).

Lemma text_address : forall t, text_slot t = address_slot (match t with [] => None | _ => Some t end).
Proof. intros [|b t]; reflexivity. Qed.
Lemma ups_id : forall A (m : nat -> A) i s j, m i = s -> ups m i s j = m j.
Proof. intros A m i s j E. unfold ups. destruct (Nat.eqb_spec j i) as [->|_]; congruence. Qed.

Lemma in_strings : forall (e : nat * bytes * bytes * N) l, existsb (fun y => let '(f, k, d, s) := y in let '(f', k', d', s') := e in Nat.eqb f f' && beqb k k' && beqb d d' && (s =? s')) l = true -> In e l.
Proof.
  intros [[[f k] d] s] l H. apply existsb_exists in H. destruct H as ([[[f' k'] d'] s'] & Hi & H). repeat rewrite Bool.andb_true_iff in H. destruct H as (((H1 & H2) & H3) & H4).
  apply Nat.eqb_eq in H1. apply beqb_eq in H2, H3. apply N.eqb_eq in H4. subst. exact Hi.
Qed.
Lemma loaded_string : forall m p mm f k d s, loaded m p mm -> existsb (fun y : nat * bytes * bytes * N => let '(f', k', d', s') := y in Nat.eqb f' f && beqb k' k && beqb d' d && (s' =? s)) (pt_strings p) = true ->
  mm f = address_slot (string_of_file m (pt_name p) k d s).
Proof.
  intros m p mm f k d s [A _] H. rewrite (A f k d s); [unfold string_of_file; destruct (ini_gets m (pt_name p) k d s); reflexivity|]. apply (in_strings (f, k, d, s)). exact H.
Qed.

Lemma override_ok : forall m a h cfg base mm foot, cst base h cfg mm foot (fun _ => False) -> plenty h -> cstr_ok a ->
  loaded m pledge_part mm -> loaded m registrar_part mm -> loaded m masa_part mm ->
  exists h', override_address h cfg a = Ok (true, h') /\ configured m a h' cfg.
Proof.
  intros m a h cfg base mm foot C PL CA L1 L2 L3.
  assert (E11 : mm 11%nat = address_slot (string_of_file m (s2b "registrar") (s2b "bindAddress") (s2b "0.0.0.0") 2048)) by (apply (loaded_string m registrar_part mm 11 _ _ _ L2); vm_compute; reflexivity).
  assert (E12 : mm 12%nat = address_slot (registrar_setting m (s2b "tlsCertPath"))) by (apply (loaded_string m registrar_part mm 12 _ _ _ L2); vm_compute; reflexivity).
  destruct a as [|b a].
  { exists h. split; [reflexivity|]. split; [apply C|]. split; [exact PL|]. exists base, mm, foot, (fun _ => False). split; [exact C|]. split; [exact L1|]. split; [eapply tidy_loaded; exact L2|]. split; [eapply tidy_loaded; exact L3|]. split; [exact E11|exact E12]. }
  set (t := b :: a) in *. unfold override_address. change (match t with [] => Ok (true, h) | _ => ?x end) with x.
  assert (I11 : (11 < cfg_fields)%nat) by (apply Nat.ltb_lt; reflexivity).
  destruct (cst_field _ _ _ _ _ _ 11 C I11) as (v & G & S).
  (* releasing the old address *)
  assert (FR : exists p h1, v = P p /\ sys_free h p = Ok h1 /\ PConfig.ext base cfg h h1 /\ exists s foot', cst base h1 cfg (ups mm 11 s) foot' (fun _ => False) /\ foot' 11%nat = []).
  { destruct (address_slot _) as [|o| |] eqn:Ea in E11; try (destruct (string_of_file _ _ _ _ _); discriminate Ea); rewrite E11 in S.
    - destruct S as [-> F]. exists 0, h. split; [reflexivity|]. split; [reflexivity|]. split; [apply PConfig.ext_refl|]. exists SNull, foot. split; [|exact F]. eapply cst_ext; [exact C|]. intros i. symmetry. apply ups_id. exact E11.
    - destruct S as (q & d & -> & A0 & F & Ca & Ct). pose proof C as (O & B & B0 & _ & D & T1). assert (Lv : is_live h q) by (eexists; exact Ca). destruct (T1 11%nat q) as [Ba _]; [rewrite F; left; reflexivity|].
      destruct (free_live h q (proj1 O) Lv) as [E1 W1]. exists q, (put h q Freed). split; [reflexivity|]. split; [exact E1|]. split; [split; [reflexivity|]; split; [cbn; lia|]; intros x Hx _; apply put_other; lia|].
      exists SDang, (ups foot 11 []). split; [|apply ups_same]. eapply cst_slot; [exact C|exact I11|exact G| |apply put_other; lia| | | |intros x []].
      + eapply only_iff; [apply only_freed; [exact O|exact Lv]|]. intros x Hx. cbn beta. split.
        * intros [[[]|[j Q]] N]. right. right. exists j. split; [|exact Q]. intros ->. rewrite F in Q. destruct Q as [Q|[]]. congruence.
        * intros [[]|[[]|(j & Hj & Q)]]. split; [right; exists j; exact Q|intros ->]. apply Hj. eapply D; [exact Q|rewrite F; left; reflexivity].
      + intros j x Hj Hx. apply put_other. intros ->. apply Hj. eapply D; [exact Hx|rewrite F; left; reflexivity].
      + intros x Hx. destruct (N.eq_dec x q) as [->|Hne]; [apply put_same|rewrite put_other by exact Hne; exact Hx].
      + exists q. split; [reflexivity|]. split; [exact A0|]. split; [apply put_same|reflexivity]. }
  destruct FR as (p & h1 & -> & E1 & X1 & s & foot1 & C1 & F1). rewrite (get_ptr_of _ _ _ _ G). cbn [obind]. rewrite E1. cbn [obind].
  assert (PL1 : plenty h1) by (intros x; rewrite (proj1 X1); apply PL).
  destruct (cst_alloc _ _ _ _ _ _ (Buf (t ++ [0])) C1) as (q & h2 & E2 & N2 & X2 & [(_ & Q & _)|(Q0 & Qb & _ & Cq & _ & Cx & C2)]); [rewrite PL1 in Q; discriminate|]. rewrite E2.
  assert (NF : forall j, ~ In q (foot1 j)). { intros j Q. destruct C2 as (_ & _ & _ & _ & _ & T). apply (proj2 (T j q Q)). right. reflexivity. }
  destruct (cst_set base h2 cfg (ups mm 11 s) foot1 (fun x => False \/ x = q) (fun _ => False) 11%nat (P q) (SStr t) [q] C2 I11) as (h3 & E3 & N3 & X3 & _ & C3).
  { exists q, (t ++ [0]). split; [reflexivity|]. split; [exact Q0|]. split; [reflexivity|]. split; [exact Cq|]. split; [apply in_or_app; right; left; reflexivity|]. apply PConfig.c_string_app. exact CA. }
  { intros x [<-|[]]. split; [exact Qb|]. split; [intros []|]. intros j _. apply NF. }
  { intros x _. rewrite F1. cbn [In]. split; [intros [[[]| ->]|[]]; right; left; reflexivity|intros [[]|[<-|[]]]; left; right; reflexivity]. }
  { intros j x _ _ []. }
  rewrite E3. cbn [obind]. rewrite (proj2 (N.eqb_neq _ _) Q0). cbn [negb]. exists h3. split; [reflexivity|]. split; [apply C3|]. split; [intros x; rewrite (proj1 X3), (proj1 X2); apply PL1|].
  assert (UO : forall j, j <> 11%nat -> ups (ups mm 11 s) 11 (SStr t) j = mm j) by (intros j Hj; rewrite !ups_other by exact Hj; reflexivity).
  assert (NI : ~ In 11%nat (fields pledge_part) /\ ~ In 11%nat (fields masa_part)) by (apply (parts_disjoint 11); left; reflexivity).
  exists base, (ups (ups mm 11 s) 11 (SStr t)), (ups foot1 11 [q]), (fun _ => False). split; [exact C3|]. split; [eapply loaded_ext; [exact L1|]; intros i Hi; apply UO; intros ->; tauto|]. split; [|split; [|split]].
  - destruct (tidy_loaded _ _ _ L2) as [TA TB]. split; intros i Hi.
    + destruct (Nat.eq_dec i 11) as [->|Hn]; [right; exists t; apply ups_same|]. rewrite UO by exact Hn. apply TA. exact Hi.
    + rewrite UO; [apply TB; exact Hi|]. intros ->. repeat (destruct Hi as [Hi|Hi]; [discriminate Hi|]). destruct Hi.
  - eapply tidy_ext; [eapply tidy_loaded; exact L3|]. intros i Hi. apply UO. intros ->. tauto.
  - rewrite ups_same. reflexivity.
  - rewrite UO by discriminate. exact E12.
Qed.

(** *** Leaving *)
Lemma leave_ok : forall m a h cfg h' r, configured m a h cfg -> POwn.ext h h' -> exists h'', leave cfg (r, h') = Ok (r, h'').
Proof.
  intros m a h cfg h' r (W & _ & base & mm & foot & T & C & L1 & T2 & T3 & _) (W' & N & K & _). unfold leave. pose proof C as ((_ & Hb & Hl) & Bc & B0 & _ & _ & TF).
  assert (C' : cst base h' cfg mm foot (fun x => is_live h' x /\ forall i, ~ In x (foot i))).
  { eapply cst_step; [exact C| | | |].
    - split; [exact W'|]. split; [lia|]. intros x Hx. split.
      + intros Lx. assert (DEC : (exists i, In x (foot i)) \/ forall i, ~ In x (foot i)).
        { assert (G : forall n, (exists i, (i < n)%nat /\ In x (foot i)) \/ forall i, (i < n)%nat -> ~ In x (foot i)).
          { induction n as [|n IH]; [right; intros i Hi; lia|]. destruct IH as [(i & Hi & Q)|IH]; [left; exists i; split; [lia|exact Q]|]. destruct (in_dec N.eq_dec x (foot n)) as [Q|Q]; [left; exists n; split; [lia|exact Q]|].
            right. intros i Hi. destruct (Nat.eq_dec i n) as [->|Hn]; [exact Q|apply IH; lia]. }
          destruct (G cfg_fields) as [(i & _ & Q)|Q]; [left; exists i; exact Q|]. right. intros i. destruct (Nat.lt_ge_cases i cfg_fields) as [Hi|Hi]; [apply Q; exact Hi|]. destruct C as (_ & _ & _ & (fs & _ & _ & Z & _) & _). rewrite Z by exact Hi. intros []. }
        destruct DEC as [Q|Q]; [right; exact Q|left; auto].
      + intros [[Lx _]|[i Q]]; [exact Lx|]. destruct (foot_live _ _ _ _ _ _ _ _ C Q) as [y Hy]. exists y. rewrite <- Hy. apply K. eapply live_below; [exact W|eexists; exact Hy].
    - apply K. lia.
    - intros i x Hx. split; [|intros [_ Q]; exact (Q i Hx)]. apply K. eapply live_below; [exact W|eapply foot_live; eassumption].
    - intros x Hx. destruct (N.lt_ge_cases x (hp_next h)) as [Hn|Hn]; [rewrite K by exact Hn; exact Hx|]. destruct W as (_ & _ & W3). rewrite W3 in Hx by exact Hn. discriminate. }
  destruct (free_config_ok _ _ _ _ _ _ C' (tidy_loaded _ _ _ L1) T2 T3) as (h'' & _ & _ & E & _). rewrite E. exists h''. reflexivity.
Qed.

(** *** Reading *)
Lemma alist_paths : forall h H items F, heap_wf h -> alist h H items F -> Forall (fun it => In 0 (fst it)) items -> path_list h H (map (fun it => c_string (fst it)) items).
Proof.
  intros h H items F W AL HZ. right. pose proof AL as (ns & LO & It & EF). exists (map fst ns). split; [exact (for_each_ok arr_off arr_owned h H apre ns W LO)|]. split.
  - destruct (alist_items _ _ _ _ W AL) as [_ Q]. rewrite Q, map_length, (Forall2_len _ _ _ _ _ It). reflexivity.
  - destruct LO as [[_ [_ [_ [Sg _]]]] _].
    assert (HI : forall n it, In n ns -> In it items -> aitem h n it -> exists q, get_ptr h (fst n) 0 = Ok q /\ heap_string h q = Ok (c_string (fst it))).
    { intros [a pre] [c fl] Hin Hit [b [B0 [Hs Hb]]]. cbn [fst snd] in *. subst pre. destruct (seg_cell 3 ns h H H a _ Sg Hin) as [A0 [n [r Hc]]]. unfold node in Hc. cbn [app] in Hc.
      exists b. split; [eapply get_ptr_at; [exact A0|exact Hc|reflexivity]|]. rewrite Forall_forall in HZ. apply heap_string_exact; [exact B0|exact Hb|apply (HZ _ Hit)]. }
    revert HI. clear - It. induction It as [|n it ns items H1 H2 IH]; intros HI; cbn [map]; constructor; [apply HI; [left; reflexivity|left; reflexivity|exact H1]|]. apply IH. intros n' it' A B. apply HI; right; assumption.
Qed.

Lemma slot_string : forall base h v x F, slot_ok base h v (address_slot x) F -> exists p, v = P p /\ opt_string h p = Ok x /\ match x with Some t => heap_string h p = Ok t | None => p = 0 end.
Proof.
  intros base h v [t|] F S; cbn [address_slot slot_ok] in S.
  - destruct S as (a & d & -> & A0 & _ & Ca & Hin & Ct). exists a. split; [reflexivity|]. assert (Q : heap_string h a = Ok t) by (rewrite (heap_string_exact _ _ _ A0 Ca Hin), Ct; reflexivity). unfold opt_string. rewrite (proj2 (N.eqb_neq _ _) A0), Q. auto.
  - destruct S as [-> _]. exists 0. auto.
Qed.

(** What the eight fields of the pledge hold. *)
Definition fields_say (m : ini) (h : heap) (c : pledge_conf) : Prop :=
  opt_string h (pl_created c) = Ok (string_of_file m (s2b "pledge") (s2b "createdOn") [] 22) /\
  opt_string h (pl_serial c) = Ok (pledge_setting m (s2b "serialNumber")) /\ opt_string h (pl_nonce c) = Ok (pledge_setting m (s2b "nonce")) /\
  match pledge_setting m (s2b "cmsSignCertPath") with Some t => heap_string h (pl_cert c) = Ok t | None => pl_cert c = 0 end /\
  match pledge_setting m (s2b "cmsSignKeyPath") with Some t => heap_string h (pl_key c) = Ok t | None => pl_key c = 0 end /\
  path_list h (pl_add c) (paths_of m (s2b "pledge") (s2b "cmsAdditionalCertPath")) /\
  path_list h (pl_verify c) (paths_of m (s2b "pledge") (s2b "cmsVerifyCertPath")) /\
  path_list h (pl_store c) (paths_of m (s2b "pledge") (s2b "cmsVerifyStorePath")).

Lemma paths_texts : forall m sec key, ini_ok m -> map (fun it : bytes * Z => c_string (fst it)) (list_of_file m sec key) = paths_of m sec key /\ Forall (fun it : bytes * Z => In 0 (fst it)) (list_of_file m sec key).
Proof.
  intros m sec key [_ OK]. unfold list_of_file, paths_of. change INI_BUFFERSIZE with 512. destruct (OK sec key [] 512 (Forall_nil _) ltac:(lia)) as [CT _]. destruct (ini_gets m sec key [] 512) as [|b t]; [split; [reflexivity|constructor]|].
  set (n := count_occ bytes_dec (ini_keys m sec) key). split.
  - induction n as [|n IH]; [reflexivity|]. cbn [repeat map fst]. rewrite IH. f_equal. apply PConfig.c_string_app. exact CT.
  - apply Forall_forall. intros x Hx. apply repeat_spec in Hx. subst x. cbn [fst]. apply in_or_app. right. left. reflexivity.
Qed.

Lemma fields_ok : forall m a h cfg, configured m a h cfg -> ini_ok m -> exists c, pledge_fields h cfg = Ok c /\ fields_say m h c.
Proof.
  intros m a h cfg (W & PL & base & mm & foot & T & C & L1 & T2 & T3 & E11 & E12) OK. unfold pledge_fields.
  assert (STR : forall i k s, Nat.ltb i cfg_fields && existsb (fun y : nat * bytes * bytes * N => let '(f', k', d', s') := y in Nat.eqb f' i && beqb k' k && beqb d' [] && (s' =? s)) (pt_strings pledge_part) = true ->
    exists p, get_ptr h cfg i = Ok p /\ opt_string h p = Ok (string_of_file m (s2b "pledge") k [] s) /\ match string_of_file m (s2b "pledge") k [] s with Some t => heap_string h p = Ok t | None => p = 0 end).
  { intros i k s H. apply Bool.andb_true_iff in H. destruct H as [Hi H]. apply Nat.ltb_lt in Hi. pose proof (loaded_string m pledge_part mm i k [] s L1 H) as E. destruct (cst_field _ _ _ _ _ _ i C Hi) as (v & G & S). rewrite E in S.
    destruct (slot_string _ _ _ _ _ S) as (p & -> & Q1 & Q2). exists p. split; [apply get_ptr_of; exact G|]. auto. }
  assert (LST : forall i k, Nat.ltb i cfg_fields && existsb (fun y : nat * bytes => let '(f', k') := y in Nat.eqb f' i && beqb k' k) (pt_lists pledge_part) = true ->
    exists p, get_ptr h cfg i = Ok p /\ path_list h p (paths_of m (s2b "pledge") k)).
  { intros i k H. apply Bool.andb_true_iff in H. destruct H as [Hi H]. apply Nat.ltb_lt in Hi. apply existsb_exists in H. destruct H as ([f' k'] & Hin & H). apply Bool.andb_true_iff in H. destruct H as [H1 H2]. apply Nat.eqb_eq in H1. apply beqb_eq in H2. subst f' k'.
    destruct (cst_field _ _ _ _ _ _ i C Hi) as (v & G & S). rewrite (proj2 L1 i k Hin) in S. destruct S as (H & -> & AL). exists H. split; [apply get_ptr_of; exact G|]. change (pt_name pledge_part) with (s2b "pledge") in AL.
    destruct (paths_texts m (s2b "pledge") k OK) as [Q1 Q2]. rewrite <- Q1. eapply alist_paths; [exact W|exact AL|exact Q2]. }
  destruct (STR 0%nat (s2b "createdOn") 22 ltac:(vm_compute; reflexivity)) as (p0 & G0 & R0 & _). destruct (STR 1%nat (s2b "serialNumber") 2048 ltac:(vm_compute; reflexivity)) as (p1 & G1 & R1 & _).
  destruct (STR 2%nat (s2b "nonce") 2048 ltac:(vm_compute; reflexivity)) as (p2 & G2 & R2 & _). destruct (STR 6%nat (s2b "cmsSignCertPath") 2048 ltac:(vm_compute; reflexivity)) as (p6 & G6 & _ & R6).
  destruct (STR 7%nat (s2b "cmsSignKeyPath") 2048 ltac:(vm_compute; reflexivity)) as (p7 & G7 & _ & R7).
  destruct (LST 8%nat (s2b "cmsAdditionalCertPath") ltac:(vm_compute; reflexivity)) as (p8 & G8 & R8). destruct (LST 9%nat (s2b "cmsVerifyCertPath") ltac:(vm_compute; reflexivity)) as (p9 & G9 & R9). destruct (LST 10%nat (s2b "cmsVerifyStorePath") ltac:(vm_compute; reflexivity)) as (p10 & G10 & R10).
  rewrite G0, G1, G2, G6, G7, G8, G9, G10. cbn [obind]. eexists. split; [reflexivity|]. unfold fields_say, pledge_setting. cbn [pl_created pl_serial pl_nonce pl_cert pl_key pl_add pl_verify pl_store]. auto 10.
Qed.
Lemma fields_config : forall m h c, fields_say m h c -> signs m -> pledge_config h c (settings m).
Proof.
  intros m h c (A1 & A2 & A3 & A4 & A5 & A6 & A7 & A8) [S1 S2]. unfold pledge_config, settings. cbn [pf_created pf_serial pf_nonce pf_cert pf_key pf_add pf_verify pf_store].
  destruct (pledge_setting m (s2b "cmsSignCertPath")); [|congruence]. destruct (pledge_setting m (s2b "cmsSignKeyPath")); [|congruence]. cbn [or_empty]. auto 10.
Qed.
Lemma string_ok : forall m sec key def size t, ini_ok m -> cstr_ok def -> 0 < size -> string_of_file m sec key def size = Some t -> cstr_ok t.
Proof. intros m sec key def size t [_ OK] D S Q. unfold string_of_file in Q. destruct (OK sec key def size D S) as [C _]. destruct (ini_gets m sec key def size); [discriminate|]. injection Q as <-. exact C. Qed.
Lemma settings_text : forall m, ini_ok m -> pledge_text_ok (settings m).
Proof.
  intros m OK. split; intros s Q; cbn [settings pf_serial pf_nonce] in Q; [|apply cstr_bytes]; (eapply string_ok; [exact OK| | |exact Q]; [constructor|lia]).
Qed.
Lemma fields_ext : forall m h h' c, heap_wf h -> POwn.ext h h' -> fields_say m h c -> fields_say m h' c.
Proof.
  intros m h h' c W X (A1 & A2 & A3 & A4 & A5 & A6 & A7 & A8). split; [eapply ext_opt_string; eassumption|]. split; [eapply ext_opt_string; eassumption|]. split; [eapply ext_opt_string; eassumption|].
  split; [destruct (pledge_setting m (s2b "cmsSignCertPath")); [eapply ext_string; eassumption|exact A4]|]. split; [destruct (pledge_setting m (s2b "cmsSignKeyPath")); [eapply ext_string; eassumption|exact A5]|].
  split; [eapply ext_path_list; eassumption|]. split; eapply ext_path_list; eassumption.
Qed.

Lemma cfg_string_opt : forall h cfg i p x, get_ptr h cfg i = Ok p -> opt_string h p = Ok x -> cfg_string h cfg i = Ok x.
Proof. intros h cfg i p x G Q. unfold cfg_string. rewrite G. exact Q. Qed.
Lemma client_ok : forall m a h cfg, configured m a h cfg ->
  client h cfg = Ok match address_of m a, pledge_setting m (s2b "idevidKeyPath"), pledge_setting m (s2b "idevidCertPath") with Some a, Some k, Some c => Some (k, c, a) | _, _, _ => None end.
Proof.
  intros m a h cfg (W & PL & base & mm & foot & T & C & L1 & T2 & T3 & E11 & E12). unfold client.
  assert (STR : forall i x, Nat.ltb i cfg_fields = true -> mm i = address_slot x -> cfg_string h cfg i = Ok x).
  { intros i x Hi E. apply Nat.ltb_lt in Hi. destruct (cst_field _ _ _ _ _ _ i C Hi) as (v & G & S). rewrite E in S. destruct (slot_string _ _ _ _ _ S) as (p & -> & Q1 & _). eapply cfg_string_opt; [apply get_ptr_of; exact G|exact Q1]. }
  rewrite (STR 4%nat (pledge_setting m (s2b "idevidKeyPath")) eq_refl) by (apply (loaded_string m pledge_part mm 4 _ _ _ L1); vm_compute; reflexivity). cbn [obind].
  rewrite (STR 3%nat (pledge_setting m (s2b "idevidCertPath")) eq_refl) by (apply (loaded_string m pledge_part mm 3 _ _ _ L1); vm_compute; reflexivity). cbn [obind].
  rewrite (STR 11%nat _ eq_refl E11). reflexivity.
Qed.
Lemma address_ok : forall m a h cfg, configured m a h cfg -> cfg_string h cfg 11 = Ok (address_of m a).
Proof.
  intros m a h cfg (W & PL & base & mm & foot & T & C & L1 & T2 & T3 & E11 & E12). destruct (cst_field _ _ _ _ _ _ 11%nat C ltac:(apply Nat.ltb_lt; reflexivity)) as (v & G & S). rewrite E11 in S.
  destruct (slot_string _ _ _ _ _ S) as (p & -> & Q1 & _). eapply cfg_string_opt; [apply get_ptr_of; exact G|exact Q1].
Qed.
Lemma tls_path_ok : forall m a h cfg, configured m a h cfg -> exists p, get_ptr h cfg 12 = Ok p /\ match registrar_setting m (s2b "tlsCertPath") with Some t => heap_string h p = Ok t | None => p = 0 end.
Proof.
  intros m a h cfg (W & PL & base & mm & foot & T & C & L1 & T2 & T3 & E11 & E12). destruct (cst_field _ _ _ _ _ _ 12%nat C ltac:(apply Nat.ltb_lt; reflexivity)) as (v & G & S). rewrite E12 in S.
  destruct (slot_string _ _ _ _ _ S) as (p & -> & _ & Q). exists p. split; [apply get_ptr_of; exact G|exact Q].
Qed.
