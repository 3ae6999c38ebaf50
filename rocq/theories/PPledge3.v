(** Proofs about the pledge client: the whole exchange. *)
From Coq Require Import Permutation.
From Verif Require Import Base PBase MOs MBase64 MSerialize MVoucher MCrypto MRequest MHeap MArray MVoucherHeap MConfig MHandlers SBase64 SHeap SArray SConfig SVoucher SRequest SHandlers SPledge
  PBase64 PHeap PArray PBlocks PConfig PConfigMore PCertFiles POwn PAcquire PAcquire2 PRequest PRequest2 PRequest3 PRequest4 PRequest5 PRequest6 PRequest7 PMasa PRegistrar PPledge PPledge2.
Open Scope N_scope.

Lemma given_fun : forall f n n', nonce_given f n -> nonce_given f n' -> n = n'.
Proof. intros f n n' H H'. unfold nonce_given in *. destruct (pf_nonce f); [|congruence]. destruct H as (? & ? & ->), H' as (? & ? & ->). congruence. Qed.
Lemma asks_fun : forall o w f tls cms cms', pledge_asks o w f tls cms -> pledge_asks o w f tls cms' -> cms = cms'.
Proof.
  intros o w f tls cms cms' (t & s & n & ce & ke & ad & Q1 & Q2 & Q3 & Q4 & Q5 & Q6 & Q7 & Q8) (t' & s' & n' & ce' & ke' & ad' & R1 & R2 & R3' & R4 & R5 & R6 & R7 & R8).
  rewrite <- (given_fun _ _ _ Q4 R4) in R8. rewrite <- (cert_list_fun _ _ _ _ Q7 R7) in R8. assert (t' = t) as -> by congruence. assert (s' = s) as -> by congruence. assert (ce' = ce) as -> by congruence. assert (ke' = ke) as -> by congruence.
  apply (signed_voucher_sign _ _ _ _ _ _ _ (fun v H => pv1_unique v _ _ _ _ H)) in Q8. apply (signed_voucher_sign _ _ _ _ _ _ _ (fun v H => pv1_unique v _ _ _ _ H)) in R8. congruence.
Qed.
Lemma first_fun : forall p t t', first_contact p t -> first_contact p t' -> t = t'.
Proof. intros p t t' (s & r & v & A & _ & B) (s' & r' & v' & A' & _ & B'). congruence. Qed.
Lemma second_fun : forall p b t r t' r', second_contact p b t r -> second_contact p b t' r' -> t = t' /\ r = r'.
Proof. intros p b t r t' r' (s & v & A & _ & B) (s' & v' & A' & _ & B'). rewrite A in A'. injection A' as <- <- <-. split; congruence. Qed.

Lemma cert2buf_arrives : forall h v, heap_wf h -> plenty h ->
  match v with
  | Some v => match cv_der v with Some d => exists p h', crypto_cert2buf h (Some v) = Ok (p, h') /\ p <> 0 /\ arrived h h' (OArr p) /\ h_barray h' p = Ok (Some (ba_of d)) | None => crypto_cert2buf h (Some v) = Ok (0, h) end
  | None => crypto_cert2buf h None = Ok (0, h)
  end.
Proof. intros h [v|] W PL; [|reflexivity]. cbn [crypto_cert2buf]. destruct (cv_der v) as [d|]; [|reflexivity]. apply new_array_arrives; assumption. Qed.

Definition pledge_ran (o : ossl) (w : world) (f : pledge_files) (post1 post2 : post_cert_fn) (h : heap) (pinned : N) (r : outcome (Z * heap)) : Prop :=
  exists z h', r = Ok (z, h') /\
   (z = (-1)%Z /\ ext h h' /\ st (hp_next h) h' [] /\ (forall tls1 tls2 d, ~ pledge_obtains o w f post1 post2 tls1 tls2 d) \/
    z = 0%Z /\ heap_wf h' /\ hp_next h <= hp_next h' /\ hp_oom h' = hp_oom h /\ exists tls1 tls2 d, pledge_obtains o w f post1 post2 tls1 tls2 d /\ pinned_result h h' pinned d).

Lemma ext_pledge : forall h h' c f, heap_wf h -> ext h h' -> pledge_config h c f -> pledge_config h' c f.
Proof.
  intros h h' c f W E (C1 & C2 & C3 & C4 & C5 & C6 & C7 & C8).
  split; [eapply ext_opt_string; eassumption|]. split; [eapply ext_opt_string; eassumption|]. split; [eapply ext_opt_string; eassumption|]. split; [eapply ext_string; eassumption|]. split; [eapply ext_string; eassumption|].
  split; [eapply ext_path_list; eassumption|]. split; eapply ext_path_list; eassumption.
Qed.

Lemma pledge_run : forall o w c f post1 post2 h pinned, ossl_sane o -> world_ok w -> heap_wf h -> plenty h -> pledge_config h c f -> pledge_text_ok f -> post_ok post1 -> post_ok post2 ->
  pinned <> 0 -> hp_cell h pinned = Live (Struct [P 0; I 0]) ->
  (pledge_unsafe o w f post1 post2 /\ exists k, post_voucher_pledge_request o w c post1 post2 h pinned = UB k) \/
  (~ pledge_unsafe o w f post1 post2 /\ pledge_ran o w f post1 post2 h pinned (post_voucher_pledge_request o w c post1 post2 h pinned)).
Proof.
  intros o w c f post1 post2 h pinned OS WO W PL CF TX PO1 PO2 P0 CP. unfold post_voucher_pledge_request.
  destruct (post1 []) as [[s1 r1] v1] eqn:E1. destruct (PO1 _ _ _ _ (Forall_nil _) E1) as [_ V1].
  assert (NOFIRST : (forall t, ~ first_contact post1 t) -> (~ pledge_unsafe o w f post1 post2) /\ (forall tls1 tls2 d, ~ pledge_obtains o w f post1 post2 tls1 tls2 d)).
  { intros Q. split; [intros (t & H & _); exact (Q _ H)|]. intros t1 t2 d (? & ? & ? & H & _). exact (Q _ H). }
  assert (BYE : (forall t, ~ first_contact post1 t) -> ~ pledge_unsafe o w f post1 post2 /\ pledge_ran o w f post1 post2 h pinned (Ok ((-1)%Z, h))).
  { intros Q. destruct (NOFIRST Q) as [Q1 Q2]. split; [exact Q1|]. exists (-1)%Z, h. split; [reflexivity|]. left. split; [reflexivity|]. split; [apply ext_refl; exact W|]. split; [apply st_init; exact W|exact Q2]. }
  destruct (Z.ltb_spec s1 0) as [L1|L1]. { right. apply BYE. intros t (s & r & v & Q & Q2 & _). rewrite E1 in Q. injection Q; intros; subst; lia. }
  pose proof (cert2buf_arrives h v1 W PL) as D1. destruct v1 as [v1|]; [destruct (cv_der v1) as [tb1|] eqn:Ed1|].
  2:{ rewrite D1. cbn [obind N.eqb]. right. apply BYE. intros t (s & r & v & Q & _ & Q2). rewrite E1 in Q. injection Q as <- <- <-. congruence. }
  2:{ rewrite D1. cbn [obind N.eqb]. right. apply BYE. intros t (s & r & v & Q & _ & Q2). congruence. }
  assert (FC : first_contact post1 tb1) by (exists s1, r1, v1; auto). clear BYE NOFIRST.
  destruct D1 as (tls & h1 & E2 & T0 & A1 & B1). rewrite E2. cbn [obind]. rewrite (proj2 (N.eqb_neq _ _) T0).
  pose proof (st_init h W) as S0. set (base := hp_next h) in *. pose proof (proj1 A1) as Ex1. destruct (arrived_list _ _ _ _ _ S0 A1) as [Ft S1]. pose proof (proj1 Ex1) as W1. pose proof (ext_plenty _ _ Ex1 PL) as PL1.
  assert (BT1 : bytes_ok tb1) by (destruct (V1 _ eq_refl) as (_ & _ & _ & Q); apply Q; exact Ed1).
  destruct (ask64_run o w c f h1 tls tb1 OS WO W1 PL1 (ext_pledge _ _ _ _ W Ex1 CF) TX T0 B1 BT1) as [[C [k E]]|[NC (text & h2 & E & Ex12 & S12 & D)]]; rewrite E; cbn [obind].
  { left. split; [exists tb1; auto|]. exists k. reflexivity. }
  pose proof (ext_trans _ _ _ Ex1 Ex12) as Ex2. pose proof (st_acquire _ _ _ _ _ S1 Ex12 S12) as S2. cbn [app] in S2.
  change (h_free_binary_array h2 tls) with (free_owned h2 (OArr tls)). destruct (st_free _ _ _ _ _ S2) as (h3 & E3 & S3 & R3 & N3 & O3). rewrite E3. cbn [obind].
  assert (Ex3 : ext h h3). { eapply (part_ext h h2 h3 [(OArr tls, Ft)] []); [exact Ex2|exact S2|exact S3| |exact N3|exact O3]; unfold oprint; cbn [map List.concat snd]; rewrite app_nil_r; exact R3. }
  pose proof (proj1 Ex3) as W3. pose proof (ext_plenty _ _ Ex3 PL) as PL3.
  assert (BYE : (forall cms t2 r2, pledge_asks o w f tb1 cms -> blen cms < SIZE_MAX / 4 -> ~ second_contact post2 (rfc_encode cms) t2 r2) -> ~ pledge_unsafe o w f post1 post2 /\ pledge_ran o w f post1 post2 h pinned (Ok ((-1)%Z, h3))).
  { intros Q. split.
    - intros (t & H & [H1|(cms & t2 & r2 & H1 & H2 & H3 & _)]); [contradiction|]. rewrite <- (first_fun _ _ _ FC H) in H1. exact (Q _ _ _ H1 H2 H3).
    - exists (-1)%Z, h3. split; [reflexivity|]. left. split; [reflexivity|]. split; [exact Ex3|]. split; [exact S3|]. intros t1 t2 d (cms & r2 & m & H & H1 & H2 & H3 & _). rewrite <- (first_fun _ _ _ FC H) in H1. exact (Q _ _ _ H1 H2 H3). }
  destruct text as [text|].
  2:{ right. apply BYE. intros cms t2 r2 Q1 Q2. exfalso. exact (D _ Q1 Q2). }
  destruct D as (cms & PA & PS & ->). destruct (post2 (rfc_encode cms)) as [[s2 r2] v2] eqn:Ep2. assert (BC2 : bytes_ok cms) by (destruct PA as (? & ? & ? & ? & ? & ? & _ & _ & _ & _ & _ & _ & _ & Q); eapply signed_bytes; [exact OS|exact Q]). destruct (PO2 _ _ _ _ (cstr_ok_bytes_encode _ BC2) Ep2) as [BR V2].
  assert (BYE2 : (forall t2 r, ~ second_contact post2 (rfc_encode cms) t2 r) -> ~ pledge_unsafe o w f post1 post2 /\ pledge_ran o w f post1 post2 h pinned (Ok ((-1)%Z, h3))).
  { intros Q. apply BYE. intros cms' t2 r Q1 _. rewrite <- (asks_fun _ _ _ _ _ _ PA Q1). apply Q. }
  clear BYE. destruct (Z.ltb_spec s2 0) as [L2|L2]. { right. apply BYE2. intros t2 r (s & v & Q & Q2 & _). rewrite Ep2 in Q. injection Q; intros; subst; lia. }
  destruct (Z.leb_spec 400 s2) as [L3|L3]. { right. apply BYE2. intros t2 r (s & v & Q & Q2 & _). rewrite Ep2 in Q. injection Q; intros; subst; lia. }
  pose proof (cert2buf_arrives h3 v2 W3 PL3) as D4. destruct v2 as [v2|]; [destruct (cv_der v2) as [tb2|] eqn:Ed2|].
  2:{ rewrite D4. cbn [obind N.eqb]. right. apply BYE2. intros t2 r (s & v & Q & _ & Q2). rewrite Ep2 in Q. injection Q as <- <- <-. congruence. }
  2:{ rewrite D4. cbn [obind N.eqb]. right. apply BYE2. intros t2 r (s & v & Q & _ & Q2). congruence. }
  assert (SC : second_contact post2 (rfc_encode cms) tb2 r2) by (exists s2, v2; auto). clear BYE2.
  destruct D4 as (tls2 & h4 & E4 & T20 & A4 & B4). rewrite E4. cbn [obind]. rewrite (proj2 (N.eqb_neq _ _) T20).
  pose proof (ext_trans _ _ _ Ex3 (proj1 A4)) as Ex4. destruct (arrived_list _ _ _ _ _ S3 A4) as [Ft2 S4]. pose proof (proj1 Ex4) as W4. pose proof (ext_plenty _ _ Ex4 PL) as PL4.
  assert (BT2 : bytes_ok tb2) by (destruct (V2 _ eq_refl) as (_ & _ & _ & Q); apply Q; exact Ed2).
  rewrite c_str_ok. cbn [obind].
  assert (Lp : pinned < base) by (apply (live_below h pinned W); eexists; exact CP).
  assert (CPx : forall hx, ext h hx -> hp_cell hx pinned = Live (Struct [P 0; I 0])) by (intros hx Q; rewrite <- CP; apply Q; exact Lp).
  (* the exchange decides on the voucher *)
  assert (OBT : forall t1 t2 d, pledge_obtains o w f post1 post2 t1 t2 d <-> t1 = tb1 /\ t2 = tb2 /\ exists m, rfc_decode (c_string r2) = Some m /\ pledge_takes o w f tb2 m d).
  { intros t1 t2 d. split.
    - intros (cms' & r' & m & H & H1 & H2 & H3 & H4 & H5). rewrite <- (first_fun _ _ _ FC H) in *. rewrite <- (asks_fun _ _ _ _ _ _ PA H1) in H3. destruct (second_fun _ _ _ _ _ _ SC H3) as [<- <-]. split; [reflexivity|]. split; [reflexivity|]. exists m. auto.
    - intros (-> & -> & m & Q1 & Q2). exists cms, r2, m. repeat (split; [assumption|]). assumption. }
  assert (UNS : pledge_unsafe o w f post1 post2 <-> bad_padding (c_string r2) \/ missing (w_cert w) (pf_verify f) \/ missing (w_cert w) (pf_store f)).
  { split.
    - intros (t & H & [H1|(cms' & t2 & r' & H1 & H2 & H3 & H4)]); [contradiction|]. rewrite <- (first_fun _ _ _ FC H) in *. rewrite <- (asks_fun _ _ _ _ _ _ PA H1) in H3. destruct (second_fun _ _ _ _ _ _ SC H3) as [<- <-]. exact H4.
    - intros Q. exists tb1. split; [exact FC|]. right. exists cms, tb2, r2. auto. }
  assert (VC : verify_crash w f <-> missing (w_cert w) (pf_verify f) \/ missing (w_cert w) (pf_store f)).
  { unfold verify_crash. split; [|tauto]. intros [Q|Q]; [|exact Q]. exfalso. destruct PA as (? & ? & n & ? & ? & ? & _ & _ & _ & Q1 & _). exact (Q _ Q1). }
  pose proof (decode_arrives h4 (c_string r2) W4 PL4 (c_string_bytes _ BR)) as D5. pose proof (decode_bad (c_string r2)) as DB.
  destruct (rfc_decode (c_string r2)) as [m|] eqn:Edm.
  - destruct D5 as (arr & h5 & E5 & R0 & A5 & LB). rewrite E5. cbn [obind].
    pose proof (ext_trans _ _ _ Ex4 (proj1 A5)) as Ex5. destruct (arrived_list _ _ _ _ _ S4 A5) as [Fa S5]. pose proof (proj1 Ex5) as W5. pose proof (ext_plenty _ _ Ex5 PL) as PL5.
    pose proof (ext_barray _ _ _ _ W4 (proj1 A5) B4) as B5.
    destruct (verify_run o w c f h5 (Z.of_N (blen m)) arr (Some m) tls2 tb2 pinned OS WO W5 PL5 (ext_pledge _ _ _ _ W Ex5 CF) TX B5 BT2 P0 (CPx _ Ex5)) as [[C [k E6]]|[NV (z & h6 & E6 & D6)]];
      [split; [reflexivity|split; [exact LB|eapply rfc_decode_bytes; exact Edm]]| |]; rewrite E6; cbn [obind].
    { left. split; [apply UNS; right; apply VC; exact C|]. exists k. reflexivity. }
    right. split; [rewrite UNS; intros [Q|Q]; [apply DB in Q; destruct Q; discriminate|apply NV, VC; exact Q]|].
    destruct D6 as [(-> & Ex56 & S56 & NT)|(-> & m' & d & Q & PT & FI)].
    + pose proof (st_acquire _ _ _ _ _ S5 Ex56 S56) as S6. cbn [app] in S6. pose proof (ext_trans _ _ _ Ex5 Ex56) as Ex6.
      destruct (cleanup_part base h6 [(OBuf arr, Fa); (OArr tls2, Ft2)] [] [OBuf arr; OArr tls2] [] S6 (Forall_nil _)) as (h7 & E7 & S7 & R7 & N7 & O7); [perm|]. rewrite E7. cbn [obind].
      change ((-1 <? 0)%Z) with true. cbv iota. exists (-1)%Z, h7. split; [reflexivity|]. left. split; [reflexivity|]. split; [eapply (part_ext h h6 h7 [(OBuf arr, Fa); (OArr tls2, Ft2)] []); [exact Ex6|exact S6|exact S7|exact R7|exact N7|exact O7]|]. split; [exact S7|].
      intros t1 t2 d Q. apply OBT in Q. destruct Q as (_ & _ & m' & Q1 & Q2). injection Q1 as <-. exact (NT _ _ eq_refl Q2).
    + injection Q as <-. destruct FI as (b & B0 & N6 & W6 & O6 & S56 & Cb & Cp & Kp).
      set (h5' := MHeap.put h5 pinned (Live (Struct [P b; I (Z.of_N (blen d))]))).
      assert (S5' : st base h5' ((OBuf arr, Fa) :: (OArr tls2, Ft2) :: [])) by (apply st_write; [exact S5|exact Lp|exact P0|eexists; apply (CPx _ Ex5)]).
      assert (Ex56 : ext h5' h6).
      { split; [exact W6|]. split; [exact N6|]. split; [|exact O6]. intros a Ha. unfold h5'. destruct (N.eq_dec a pinned) as [->|Na]; [rewrite put_same; exact Cp|]. rewrite put_other by exact Na. apply Kp; [exact Ha|exact Na]. }
      pose proof (st_acquire _ _ _ _ _ S5' Ex56 S56) as S6. cbn [app] in S6.
      assert (S6' : st base h6 ([(OBuf arr, Fa); (OArr tls2, Ft2)] ++ [(OBuf b, [b])])) by (eapply st_perm; [|exact S6]; perm).
      destruct (cleanup_part base h6 _ _ [OBuf arr; OArr tls2] [] S6' (Forall_nil _)) as (h7 & E7 & S7 & [_ R7] & N7 & O7); [perm|]. rewrite E7. cbn [obind].
      change ((0 <? 0)%Z) with false. cbv iota. exists 0%Z, h7. split; [reflexivity|]. right. split; [reflexivity|]. split; [eapply st_wf; exact S7|]. split; [rewrite N7; assert (hp_next h <= hp_next h5) by (apply Ex5); lia|]. split; [rewrite O7, O6; apply Ex5|]. exists tb1, tb2, d. split; [apply OBT; split; [reflexivity|]; split; [reflexivity|]; exists m; auto|].
      assert (LOW : forall a, a < base -> hp_cell h7 a = hp_cell h6 a). { intros a Ha. apply R7. intros Q. destruct S6' as (_ & _ & _ & Bl). assert (base <= a); [|lia]. apply Bl. rewrite oprint_app. apply in_or_app. left. exact Q. }
      exists b. split; [destruct S7 as (_ & _ & _ & Bl); apply Bl; left; reflexivity|]. split; [rewrite LOW by exact Lp; exact Cp|]. split.
      { rewrite R7; [exact Cb|]. destruct S6' as (_ & _ & ND & _). rewrite oprint_app in ND. intros Q. apply (disjoint_of_NoDup _ _ ND b Q). left. reflexivity. }
      split; [|intros a Ha La; destruct S7 as ((_ & _ & On) & _); apply On in La; [destruct La as [<-|[]]; reflexivity|exact Ha]].
      intros a Ha Na. rewrite LOW by exact Ha. rewrite Kp; [apply Ex5; exact Ha| |exact Na]. assert (base <= hp_next h5) by (apply Ex5). unfold base in *. lia.
  - assert (NOB : forall t1 t2 d, ~ pledge_obtains o w f post1 post2 t1 t2 d) by (intros t1 t2 d Q; apply OBT in Q; destruct Q as (_ & _ & m & Q & _); discriminate).
    destruct (filter b64_relevant (c_string r2)) as [|x0 l0] eqn:Ef.
    + rewrite D5. cbn [obind].
      destruct (verify_run o w c f h4 (-1)%Z 0 None tls2 tb2 pinned OS WO W4 PL4 (ext_pledge _ _ _ _ W Ex4 CF) TX B4 BT2 P0 (CPx _ Ex4) eq_refl) as [[C [k E6]]|[NV (z & h6 & E6 & D6)]]; rewrite E6; cbn [obind].
      { left. split; [apply UNS; right; apply VC; exact C|]. exists k. reflexivity. }
      right. split; [rewrite UNS; intros [Q|Q]; [apply DB in Q; destruct Q; congruence|apply NV, VC; exact Q]|].
      destruct D6 as [(-> & Ex46 & S46 & _)|(_ & m' & d & Q & _)]; [|discriminate].
      pose proof (st_acquire _ _ _ _ _ S4 Ex46 S46) as S6. cbn [app] in S6. pose proof (ext_trans _ _ _ Ex4 Ex46) as Ex6.
      destruct (cleanup_part base h6 [(OArr tls2, Ft2)] [] [OBuf 0; OArr tls2] [OBuf 0] S6) as (h7 & E7 & S7 & R7 & N7 & O7); [null|perm|]. rewrite E7. cbn [obind].
      change ((-1 <? 0)%Z) with true. cbv iota. exists (-1)%Z, h7. split; [reflexivity|]. left. split; [reflexivity|]. split; [eapply (part_ext h h6 h7 [(OArr tls2, Ft2)] []); [exact Ex6|exact S6|exact S7|exact R7|exact N7|exact O7]|]. split; [exact S7|exact NOB].
    + left. assert (BAD : bad_padding (c_string r2)) by (apply DB; split; [reflexivity|discriminate]). split; [apply UNS; left; exact BAD|].
      destruct D5 as (arr & h5 & E5 & R0 & Ex45 & S45 & C5). rewrite E5. cbn [obind].
      pose proof (ext_trans _ _ _ Ex4 Ex45) as Ex5. pose proof (proj1 Ex5) as W5. pose proof (ext_plenty _ _ Ex5 PL) as PL5.
      destruct (verify_run o w c f h5 (-1)%Z arr None tls2 tb2 pinned OS WO W5 PL5 (ext_pledge _ _ _ _ W Ex5 CF) TX (ext_barray _ _ _ _ W4 Ex45 B4) BT2 P0 (CPx _ Ex5) eq_refl) as [[C [k E6]]|[NV (z & h6 & E6 & D6)]]; rewrite E6; cbn [obind].
      { exists k. reflexivity. }
      destruct D6 as [(-> & Ex56 & S56 & _)|(_ & m' & d & Q & _)]; [|discriminate].
      cbn [cleanup]. assert (C6 : hp_cell h6 arr = Freed). { rewrite <- C5. apply Ex56. destruct (N.lt_ge_cases arr (hp_next h5)) as [Q|Q]; [exact Q|]. destruct W5 as (_ & _ & W5). rewrite W5 in C5 by exact Q. discriminate. }
      unfold free_owned at 1. unfold sys_free. rewrite (proj2 (N.eqb_neq _ _) R0), C6. eexists. reflexivity.
Qed.
