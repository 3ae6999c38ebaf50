(** Proofs about the command sign-cert. *)
From Coq Require Import Permutation.
From Verif Require Import Base PBase MOs MBase64 MSerialize MVoucher MCrypto MRequest MHeap MArray MVoucherHeap MConfig MHandlers MLog MSignCert SBase64 SHeap SArray SConfig SVoucher SRequest SHandlers SPledge SLog SSignCert
  PBase64 PHeap PArray PBlocks PConfig PConfigMore PCertFiles POwn PAcquire PAcquire2 PRequest PRequest2 PRequest3 PRequest4 PRequest5 PRequest6 PRequest7 PMasa PRegistrar PPledge PPledge2 PPledge3 PLog PSignCert.
Open Scope N_scope.

(** *** The serial number *)
Lemma rand_fold : forall x r, rand_step (x mod 18446744073709551616) r = (x * 2147483648 + r) mod 18446744073709551616.
Proof.
  intros x r. unfold rand_step. change (RAND_MAX + 1) with 2147483648. rewrite <- (N.add_mod_idemp_l (x mod _ * _)) by discriminate. rewrite N.mul_mod_idemp_l by discriminate. apply N.add_mod_idemp_l. discriminate.
Qed.
Lemma rand_value : forall r0 r1 r2 r3 r4, r3 <= 2147483647 -> r4 <= 2147483647 ->
  fold_left rand_step [r0; r1; r2; r3; r4] 0 = (r2 mod 4) * 4611686018427387904 + r3 * 2147483648 + r4.
Proof.
  intros r0 r1 r2 r3 r4 H3 H4. cbn [fold_left]. replace (rand_step 0 r0) with (r0 mod 18446744073709551616) by reflexivity. rewrite !rand_fold.
  pose proof (N.div_mod r2 4 ltac:(discriminate)) as D. pose proof (N.mod_lt r2 4 ltac:(discriminate)) as L. set (q := r2 / 4) in *. set (m := r2 mod 4) in *. rewrite D. clearbody q m.
  symmetry. apply (N.mod_unique _ _ (r0 * 1152921504606846976 + r1 * 536870912 + q)); lia.
Qed.
Lemma serial_value : forall dv, device_ok dv -> gen_rand64 (dv_rand dv) (dv_now dv) = serial_of dv.
Proof. intros dv (_ & _ & _ & _ & R). unfold gen_rand64. cbn [map]. apply rand_value; apply R. Qed.

(** *** Generating *)
Lemma to_size_len : forall d, to_size (Z.of_N (blen d)) = Z.of_N (blen d).
Proof. intros d. unfold to_size. destruct (Z.ltb_spec (Z.of_N (blen d)) 0); [lia|reflexivity]. Qed.

Lemma out_step : forall h0 h p l d z b h1, plenty h0 -> arrs h0 h ((p, 0, 0%Z) :: l) -> der_out h d = (z, b, h1) ->
  exists ha hb, set_field h1 p 0 (P b) = Ok ha /\ set_field ha p 1 (I (to_size z)) = Ok hb /\ arrs h0 hb ((p, b, to_size z) :: l) /\ (forall a, In a (places l) -> hp_cell hb a = hp_cell h a) /\
    match d with Some d => b <> 0 /\ z = Z.of_N (blen d) /\ hp_cell hb b = Live (Buf d) | None => b = 0 /\ z = (-1)%Z end.
Proof.
  intros h0 h p l d z b h1 PL A E. pose proof (arrs_wf _ _ _ A) as W. pose proof (arrs_plenty _ _ _ A PL) as PL1. pose proof A as (_ & S & F). destruct (cells_inv _ _ _ _ _ F) as (P0 & C & _).
  assert (NI : ~ In p (places l)). { destruct S as (_ & _ & ND & _). intros Q. eapply (disjoint_of_NoDup [p] (places l)); [exact ND|left; reflexivity|exact Q]. }
  destruct d as [d|]; cbn [der_out] in E.
  - destruct (plenty_alloc h (Buf d) W PL1) as (a & h' & Ea & A0 & Aa & Hn & Ca & Cx & Ex & On). rewrite Ea in E. rewrite (proj2 (N.eqb_neq _ _) A0) in E. injection E as <- <- <-.
    assert (S1 : st (hp_next h) h' [(OBuf a, [a])]).
    { apply st_one; [eapply only_iff; [exact On|]; intros y _; cbn [In]; split; [auto|]; intros [<-|[]]; reflexivity|right; split; [exact A0|]; split; [eexists; exact Ca|reflexivity]|constructor; [intros []|constructor]|intros y [<-|[]]; lia]. }
    assert (Lp : p < hp_next h) by (eapply (arrs_places _ _ _ p A), places_p; left; reflexivity). assert (Cp : hp_cell h' p = Live (Struct [P 0; I 0])) by (rewrite Cx by lia; exact C).
    erewrite set_field_at; [|exact P0|exact Cp|reflexivity]. cbn [set_nthv]. destruct (arrs_attach h0 h h' p 0%Z l a d 0%Z A Ex S1 A0 Ca) as [A1 X1].
    destruct (arrs_put _ _ _ _ _ _ (to_size (Z.of_N (blen d))) A1) as [A2 X2]. eexists. eexists. split; [reflexivity|]. erewrite set_field_at; [|exact P0|apply put_same|reflexivity]. cbn [set_nthv]. split; [reflexivity|]. split; [exact A2|].
    assert (AP : a <> p) by lia. split; [|split; [exact A0|]; split; [reflexivity|rewrite X2, X1 by exact AP; exact Ca]].
    intros y Hy. assert (y <> p) by (intros ->; contradiction). rewrite X2, X1 by assumption. apply Cx. assert (Q : In y (places ((p, 0, 0%Z) :: l))) by (rewrite places_cons; apply in_or_app; right; exact Hy). pose proof (arrs_places _ _ _ _ A Q). lia.
  - injection E as <- <- <-. erewrite set_field_at; [|exact P0|exact C|reflexivity]. cbn [set_nthv]. destruct (arrs_put h0 h p 0 0%Z l 0%Z A) as [A1 X1].
    destruct (arrs_put _ _ _ _ _ _ (to_size (-1)) A1) as [A2 X2]. eexists. eexists. split; [reflexivity|]. erewrite set_field_at; [|exact P0|apply put_same|reflexivity]. cbn [set_nthv]. split; [reflexivity|]. split; [exact A2|]. split; [|auto].
    intros y Hy. assert (y <> p) by (intros ->; contradiction). rewrite X2, X1 by assumption. reflexivity.
Qed.

Definition made (h : heap) (d : option bytes) (b : N) (z : Z) : Prop :=
  match d with Some d => b <> 0 /\ z = Z.of_N (blen d) /\ hp_cell h b = Live (Buf d) | None => b = 0 /\ z = 18446744073709551615%Z end.
Definition made_cert (dv : device) (r : bytes) : option bytes := match dv_key dv with Some k => dv_cert dv (meta_of dv r) k | None => None end.

Lemma rands_text : forall dv r, device_ok dv -> dv_random dv = Some r -> exists m n, printf_hex (Some (dv_stack dv)) 16 (Some r) 8 true = Ok (Some m, n) /\ exists l, strlen m = Ok l /\ take_mem m l = Ok (firstn 15 (hex_text true r)).
Proof.
  intros dv r (S & R & _) E. destruct (R _ E) as [B L]. destruct (hex_spec (dv_stack dv) 16 r 8 true) as (m & H & _ & _ & Z & C); [lia|lia|lia|lia|exact B|].
  exists m. eexists. split; [exact H|]. change (N.to_nat (16 - 1)) with 15%nat in *. pose proof (strlen_exact m) as Q. destruct (strlen m) as [l|k]; [|exfalso; apply Q; eapply nth_error_In; exact Z]. destruct Q as [_ ->].
  exists (blen (c_string m)). split; [reflexivity|]. unfold take_mem. pose proof (c_string_len m) as LE. replace (blen (c_string m) <=? blen m) with true by (symmetry; apply N.leb_le; exact LE).
  rewrite PArray.c_string_prefix, C. do 2 f_equal. f_equal. unfold blen in L. rewrite firstn_all2; [reflexivity|]. lia.
Qed.

Lemma gen_run : forall dv h0 h oc ok l r, device_ok dv -> plenty h0 -> dv_random dv = Some r -> arrs h0 h ((oc, 0, 0%Z) :: (ok, 0, 0%Z) :: l) ->
  exists h' bc zc bk zk, generate_sign_cert dv h oc ok = Ok (0%Z, h') /\ arrs h0 h' ((oc, bc, zc) :: (ok, bk, zk) :: l) /\ (forall a, In a (places l) -> hp_cell h' a = hp_cell h a) /\
    made h' (dv_key dv) bk zk /\ made h' (made_cert dv r) bc zc.
Proof.
  intros dv h0 h oc ok l r DO PL ER A. unfold generate_sign_cert. rewrite ER. destruct (rands_text dv r DO ER) as (m & n & E1 & len & E2 & E3). rewrite E1. cbn [obind fst]. rewrite E2. cbn [obind]. rewrite E3. cbn [obind].
  assert (M : sign_meta dv (firstn 15 (hex_text true r)) = meta_of dv r) by (unfold sign_meta, meta_of; rewrite (serial_value dv DO); reflexivity). rewrite M. clear M E1 E2 E3.
  destruct (der_out h (dv_key dv)) as [[z b] h1] eqn:D1.
  assert (A' : arrs h0 h ((ok, 0, 0%Z) :: (oc, 0, 0%Z) :: l)) by (eapply arrs_perm; [|exact A]; apply perm_swap).
  destruct (out_step _ _ _ _ _ _ _ _ PL A' D1) as (ha & hb & F1 & F2 & A1 & X1 & M1). rewrite F1. cbn [obind]. rewrite F2. cbn [obind].
  assert (LK : load_buf hb b = Ok (dv_key dv)). { unfold load_buf. destruct (dv_key dv) as [k|]; [destruct M1 as (B & _ & Q); rewrite (proj2 (N.eqb_neq _ _) B), Q; reflexivity|]. destruct M1 as [-> _]. reflexivity. }
  rewrite LK. cbn [obind]. change (match dv_key dv with Some k => dv_cert dv (meta_of dv r) k | None => None end) with (made_cert dv r).
  destruct (der_out hb (made_cert dv r)) as [[zc bc] h2] eqn:D2.
  assert (A1' : arrs h0 hb ((oc, 0, 0%Z) :: (ok, b, to_size z) :: l)) by (eapply arrs_perm; [|exact A1]; apply perm_swap).
  destruct (out_step _ _ _ _ _ _ _ _ PL A1' D2) as (hc & hd & F3 & F4 & A2 & X2 & M2). rewrite F3. cbn [obind]. rewrite F4. cbn [obind].
  exists hd, bc, (to_size zc), b, (to_size z). split; [reflexivity|]. split; [exact A2|].
  assert (SUB : forall a s1, In a (places l) -> In a (places (s1 :: l))) by (intros a s1 Q; rewrite places_cons; apply in_or_app; right; exact Q).
  split; [intros a Ha; rewrite X2, X1 by (apply SUB; exact Ha); reflexivity|]. split.
  - unfold made. destruct (dv_key dv) as [k|]; [|destruct M1 as [-> ->]; split; reflexivity]. destruct M1 as (B & -> & Q). split; [exact B|]. split; [apply to_size_len|]. rewrite X2; [exact Q|]. eapply places_b; [left; reflexivity|exact B].
  - unfold made. destruct (made_cert dv r) as [k|]; [|destruct M2 as [-> ->]; split; reflexivity]. destruct M2 as (B & -> & Q). split; [exact B|]. split; [apply to_size_len|exact Q].
Qed.

(** *** Uniqueness *)
Lemma obtains_fun : forall o w f p1 p2 t1 t2 d t1' t2' d', pledge_obtains o w f p1 p2 t1 t2 d -> pledge_obtains o w f p1 p2 t1' t2' d' -> d = d'.
Proof.
  intros o w f p1 p2 t1 t2 d t1' t2' d' (cms & r & m & F & A & _ & S & D & T) (cms' & r' & m' & F' & A' & _ & S' & D' & T').
  rewrite <- (first_fun _ _ _ F F') in *. rewrite <- (asks_fun _ _ _ _ _ _ A A') in *. destruct (second_fun _ _ _ _ _ _ S S') as [<- <-]. assert (m' = m) as -> by congruence.
  destruct T as (s & n & vc & vs & mv & _ & _ & C1 & C2 & Y & _ & _ & G & _), T' as (s' & n' & vc' & vs' & mv' & _ & _ & C1' & C2' & Y' & _ & _ & G' & _).
  rewrite <- (cert_list_fun _ _ _ _ C1 C1'), <- (cert_list_fun _ _ _ _ C2 C2') in Y'. rewrite <- (says_fun _ _ _ _ _ _ _ _ _ _ Y Y') in G'. rewrite G in G'. injection G' as Q _. congruence.
Qed.
Lemma obtains_bytes : forall o w f p1 p2 t1 t2 d, ossl_sane o -> pledge_obtains o w f p1 p2 t1 t2 d -> bytes_ok d.
Proof.
  intros o w f p1 p2 t1 t2 d OS (cms & r & m & _ & _ & _ & _ & _ & (s & n & vc & vs & mv & _ & _ & _ & _ & Y & _ & _ & G & _)). destruct (says_values _ _ _ _ _ _ _ OS Y) as [VA _].
  destruct (VA APinned _ G) as [Q|(d' & Q & B)]; [discriminate|]. unfold ba_of in Q. injection Q as -> _. exact B.
Qed.

(** *** Steps on the arrays *)
Lemma made_frame : forall h h' d b z, made h d b z -> (b <> 0 -> hp_cell h' b = hp_cell h b) -> made h' d b z.
Proof. intros h h' [d|] b z M F; [|exact M]. destruct M as (B & Z & C). split; [exact B|]. split; [exact Z|]. rewrite F by exact B. exact C. Qed.

Lemma enc_step : forall h0 h p b z l d, plenty h0 -> arrs h0 h ((p, b, z) :: l) -> made h d b z -> (forall d', d = Some d' -> bytes_ok d') ->
  exists h', encode_array h p = Ok (match d with Some d => if blen d <? SIZE_MAX / 4 then Some (rfc_encode d) else None | None => None end, h') /\ arrs h0 h' ((p, b, z) :: l) /\
    (forall a, In a (places ((p, b, z) :: l)) -> hp_cell h' a = hp_cell h a).
Proof.
  intros h0 h p b z l d PL A M BO. pose proof A as (_ & _ & F). destruct (cells_inv _ _ _ _ _ F) as (P0 & C & _). unfold encode_array. rewrite (get_int_at h p [P b; I z] 1%nat z P0 C eq_refl). cbn [obind].
  destruct d as [d|].
  - destruct M as (B & -> & Cb). rewrite N2Z.id. pose proof (N.leb_antisym (blen d) (SIZE_MAX / 4)) as Q. rewrite Q. destruct (blen d <? SIZE_MAX / 4) eqn:L; cbn [negb]; [|exists h; auto].
    destruct (encode_step h p d (arrs_wf _ _ _ A) (arrs_plenty _ _ _ A PL) (BO _ eq_refl)) as (h' & E & X & S).
    { rewrite (barray_cells h p b d _ P0 B C Cb). unfold ba_of. rewrite N2Z.id. reflexivity. }
    rewrite L in E. exists h'. split; [exact E|]. split; [eapply arrs_ext; eassumption|]. intros a Ha. apply X. eapply arrs_places; eassumption.
  - destruct M as [_ ->]. exists h. split; [reflexivity|]. auto.
Qed.

Lemma arrs_pinned : forall h0 h h' p l d, arrs h0 h ((p, 0, 0%Z) :: l) -> heap_wf h' -> hp_next h <= hp_next h' -> hp_oom h' = hp_oom h -> pinned_result h h' p d ->
  exists b, arrs h0 h' ((p, b, Z.of_N (blen d)) :: l) /\ b <> 0 /\ hp_cell h' b = Live (Buf d) /\ (forall a, In a (places l) -> hp_cell h' a = hp_cell h a).
Proof.
  intros h0 h h' p l d A W' Hn Ho (b & Lb & Cp & Cb & K & On). pose proof A as ((W & _ & _ & _) & S & F). destruct (cells_inv _ _ _ _ _ F) as (P0 & C & _).
  assert (Lp : p < hp_next h) by (eapply (arrs_places _ _ _ p A), places_p; left; reflexivity). assert (BP : b <> p) by lia. assert (B0 : b <> 0) by (destruct W as (Q & _); lia).
  set (hx := MHeap.put h' p (Live (Struct [P 0; I 0]))). assert (X : forall a, a <> p -> hp_cell hx a = hp_cell h' a) by (intros a Ha; apply put_other; exact Ha).
  assert (Wx : heap_wf hx) by (eapply wf_write; [exact W'|exact P0|exact Cp|auto]).
  assert (Ex : ext h hx). { split; [exact Wx|]. split; [exact Hn|]. split; [|exact Ho]. intros a Ha. destruct (N.eq_dec a p) as [->|D]; [unfold hx; rewrite put_same; symmetry; exact C|]. rewrite X by exact D. apply K; assumption. }
  assert (S1 : st (hp_next h) hx [(OBuf b, [b])]).
  { apply st_one; [|right; split; [exact B0|]; split; [eexists; rewrite X by exact BP; exact Cb|reflexivity]|constructor; [intros []|constructor]|intros y [<-|[]]; exact Lb].
    split; [exact Wx|]. split; [exact Hn|].     intros a Ha. assert (a <> p) by lia. split; [|intros [<-|[]]; eexists; rewrite X by assumption; exact Cb]. intros [c Hc]. left. symmetry. apply On; [exact Ha|]. exists c. rewrite <- X by assumption. exact Hc. }
  assert (Cbx : hp_cell hx b = Live (Buf d)) by (rewrite X by exact BP; exact Cb).
  destruct (arrs_attach h0 h hx p 0%Z l b d (Z.of_N (blen d)) A Ex S1 B0 Cbx) as [A1 X1]. exists b. split.
  - eapply arrs_ext; [exact A1| |change (hp_next (MHeap.put hx p (Live (Struct [P b; I (Z.of_N (blen d))])))) with (hp_next h'); apply st_init; exact W'].
    split; [exact W'|]. split; [cbn; apply N.le_refl|]. split; [|reflexivity]. intros a Ha. destruct (N.eq_dec a p) as [->|D]; [rewrite put_same; exact Cp|rewrite X1, X by exact D; reflexivity].
  - split; [exact B0|]. split; [exact Cb|]. intros a Ha. apply K; [|].
    + assert (Q : In a (places ((p, 0, 0%Z) :: l))) by (rewrite places_cons; apply in_or_app; right; exact Ha). eapply arrs_places; eassumption.
    + intros ->. destruct S as (_ & _ & ND & _). eapply (disjoint_of_NoDup [p] (places l)); [exact ND|left; reflexivity|exact Ha].
Qed.

Definition sign_err (oc ok pn : N) (h : heap) : outcome (Z * heap) :=
  obind (h_free_binary_array_content h (oc, 0%nat)) (fun h => obind (h_free_binary_array_content h (ok, 0%nat)) (fun h =>
  obind (h_free_binary_array_content h (pn, 0%nat)) (fun h => obind (sys_free h pn) (fun h => Ok ((-1)%Z, h))))).
Lemma err_run : forall h0 h oc bc zc ok bk zk pn bp zp, arrs h0 h [(oc, bc, zc); (ok, bk, zk); (pn, bp, zp)] ->
  exists h', sign_err oc ok pn h = Ok ((-1)%Z, h') /\ arrs h0 h' [(oc, 0, 0%Z); (ok, 0, 0%Z)].
Proof.
  intros h0 h oc bc zc ok bk zk pn bp zp A. unfold sign_err. destruct (arrs_content _ _ _ _ _ _ A) as (h1 & E1 & A1 & _). rewrite E1. cbn [obind].
  assert (B1 : arrs h0 h1 [(ok, bk, zk); (pn, bp, zp); (oc, 0, 0%Z)]) by (eapply arrs_perm; [|exact A1]; apply (Permutation_cons_append [(ok, bk, zk); (pn, bp, zp)])).
  destruct (arrs_content _ _ _ _ _ _ B1) as (h2 & E2 & A2 & _). rewrite E2. cbn [obind].
  assert (B2 : arrs h0 h2 [(pn, bp, zp); (oc, 0, 0%Z); (ok, 0, 0%Z)]) by (eapply arrs_perm; [|exact A2]; apply (Permutation_cons_append [(pn, bp, zp); (oc, 0, 0%Z)])).
  destruct (arrs_content _ _ _ _ _ _ B2) as (h3 & E3 & A3 & _). rewrite E3. cbn [obind]. destruct (arrs_drop _ _ _ _ _ A3) as (h4 & E4 & A4 & _). rewrite E4. cbn [obind]. exists h4. auto.
Qed.

(** *** The whole command *)
Definition sign_ends (o : ossl) (w : world) (f : pledge_files) (dv : device) (post1 post2 : post_cert_fn) (post3 : post_ca_fn) (h0 : heap) (oc ok : N) (r : outcome (Z * heap)) : Prop :=
  (sign_unsafe o w f dv post1 post2 post3 /\ exists k, r = UB k) \/
  (~ sign_unsafe o w f dv post1 post2 post3 /\ exists z h', r = Ok (z, h') /\
    (z = (-1)%Z /\ arrs h0 h' [(oc, 0, 0%Z); (ok, 0, 0%Z)] /\ (forall key cert, ~ sign_obtains o w f dv post1 post2 post3 key cert) \/
     z = 0%Z /\ exists key cert bc bk, sign_obtains o w f dv post1 post2 post3 key cert /\ arrs h0 h' [(oc, bc, Z.of_N (blen cert)); (ok, bk, Z.of_N (blen key))] /\
       bc <> 0 /\ bk <> 0 /\ hp_cell h' bc = Live (Buf cert) /\ hp_cell h' bk = Live (Buf key))).

Ltac to_err pn h := match goal with |- sign_ends ?o ?w ?f ?dv ?a ?b ?c ?h0 ?oc ?ok _ => change (sign_ends o w f dv a b c h0 oc ok (sign_err oc ok pn h)) end.
Lemma sign_run : forall o w c f dv post1 post2 post3 h0 h oc ok, ossl_sane o -> world_ok w -> heap_wf h0 -> plenty h0 -> pledge_config h0 c f -> pledge_text_ok f -> post_ok post1 -> post_ok post2 -> post_ca_ok post3 -> device_ok dv ->
  arrs h0 h [(oc, 0, 0%Z); (ok, 0, 0%Z)] -> sign_ends o w f dv post1 post2 post3 h0 oc ok (post_sign_cert o w c dv post1 post2 post3 h oc ok).
Proof.
  intros o w c f dv post1 post2 post3 h0 h oc ok OS WO W PL CF TX PO1 PO2 PO3 DO A. unfold post_sign_cert. destruct (arrs_local _ _ _ A) as (h1 & E1 & A1 & _). rewrite E1. set (pn := hp_next h) in *. clearbody pn.
  destruct (dv_random dv) as [r|] eqn:ER.
  2:{ unfold generate_sign_cert. rewrite ER. cbn [obind]. change ((-1 <? 0)%Z) with true. cbv iota. destruct (arrs_drop _ _ _ _ _ A1) as (h2 & E2 & A2 & _). rewrite E2. cbn [obind]. right.
      assert (NG : forall key response, ~ enrolled o w f dv post1 post2 post3 key response) by (intros key response (? & ? & ? & ? & ? & _ & _ & (r & Q & _) & _); congruence).
      split; [intros [[Q _]|(key & response & Q & _)]; [congruence|exact (NG _ _ Q)]|]. exists (-1)%Z, h2. split; [reflexivity|]. left. split; [reflexivity|]. split; [exact A2|]. intros key cert (response & Q & _). exact (NG _ _ Q). }
  assert (B1 : arrs h0 h1 [(oc, 0, 0%Z); (ok, 0, 0%Z); (pn, 0, 0%Z)]) by (eapply arrs_perm; [|exact A1]; apply (Permutation_cons_append [(oc, 0, 0%Z); (ok, 0, 0%Z)])).
  destruct (gen_run dv h0 h1 oc ok _ r DO PL ER B1) as (h2 & bc & zc & bk & zk & E2 & A2 & _ & MK & MC). rewrite E2. cbn [obind]. change ((0 <? 0)%Z) with false. cbv iota.
  pose proof A2 as (X2 & _ & F2). pose proof (arrs_plenty _ _ _ A2 PL) as PL2. pose proof (arrs_wf _ _ _ A2) as W2.
  assert (C2 : pn <> 0 /\ hp_cell h2 pn = Live (Struct [P 0; I 0])) by (destruct (cells_inv _ _ _ _ _ F2) as (_ & _ & F3); destruct (cells_inv _ _ _ _ _ F3) as (_ & _ & F4); destruct (cells_inv _ _ _ _ _ F4) as (Q1 & Q2 & _); auto). destruct C2 as [P0 C2].
  destruct (pledge_run o w c f post1 post2 h2 pn OS WO W2 PL2 (ext_pledge _ _ _ _ W X2 CF) TX PO1 PO2 P0 C2) as [[U [k E3]]|[NU (z & h3 & E3 & D)]]; rewrite E3; cbn [obind].
  { left. split; [left; split; [congruence|exact U]|]. exists k. reflexivity. }
  destruct D as [(-> & X3 & S3 & NO)|(-> & W3 & N3 & O3 & t1 & t2 & d & OB & PR)].
  { change ((-1 <? 0)%Z) with true. cbv iota. destruct (err_run _ _ _ _ _ _ _ _ _ _ _ (arrs_ext _ _ _ _ A2 X3 S3)) as (h4 & E4 & A4). to_err pn h3. rewrite E4. right.
    assert (NG : forall key response, ~ enrolled o w f dv post1 post2 post3 key response) by (intros key response (? & ? & ? & ? & ? & Q & _); exact (NO _ _ _ Q)).
    split; [intros [[_ Q]|(key & response & Q & _)]; [contradiction|exact (NG _ _ Q)]|]. exists (-1)%Z, h4. split; [reflexivity|]. left. split; [reflexivity|]. split; [exact A4|]. intros key cert (response & Q & _). exact (NG _ _ Q). }
  change ((0 <? 0)%Z) with false. cbv iota.
  assert (B2 : arrs h0 h2 [(pn, 0, 0%Z); (oc, bc, zc); (ok, bk, zk)]) by (eapply arrs_perm; [|exact A2]; symmetry; apply (Permutation_cons_append [(oc, bc, zc); (ok, bk, zk)])).
  destruct (arrs_pinned _ _ _ _ _ _ B2 W3 N3 O3 PR) as (bp & A3 & BP0 & Cbp & K3).
  assert (MK3 : made h3 (dv_key dv) bk zk) by (eapply made_frame; [exact MK|]; intros Q; apply K3; eapply places_b; [right; left; reflexivity|exact Q]).
  assert (MC3 : made h3 (made_cert dv r) bc zc) by (eapply made_frame; [exact MC|]; intros Q; apply K3; eapply places_b; [left; reflexivity|exact Q]).
  assert (FAIL : forall h', arrs h0 h' [(oc, bc, zc); (ok, bk, zk); (pn, bp, Z.of_N (blen d))] -> (forall key response, ~ enrolled o w f dv post1 post2 post3 key response) ->
    sign_ends o w f dv post1 post2 post3 h0 oc ok (sign_err oc ok pn h')).
  { intros h' A' NG. destruct (err_run _ _ _ _ _ _ _ _ _ _ _ A') as (h4 & E4 & A4). rewrite E4. right.
    split; [intros [[_ Q]|(key & response & Q & _)]; [contradiction|exact (NG _ _ Q)]|]. exists (-1)%Z, h4. split; [reflexivity|]. left. split; [reflexivity|]. split; [exact A4|]. intros key cert (response & Q & _). exact (NG _ _ Q). }
  assert (ONE : forall key response, enrolled o w f dv post1 post2 post3 key response -> exists cert s, made_cert dv r = Some cert /\ dv_key dv = Some key /\ blen d < SIZE_MAX / 4 /\ blen cert < SIZE_MAX / 4 /\
    post3 (pem d) (rfc_encode cert) = (s, response) /\ (0 <= s < 400)%Z).
  { intros key response (u1 & u2 & d' & cert & s & Q1 & Q2 & (r' & R1 & R2 & R3) & Q3 & Q4). rewrite <- (obtains_fun _ _ _ _ _ _ _ _ _ _ _ OB Q1) in *. exists cert, s. unfold made_cert. rewrite R2. assert (r' = r) as -> by congruence. auto. }
  destruct (enc_step h0 h3 pn bp (Z.of_N (blen d)) _ (Some d) PL A3) as (h4 & E4 & A4 & K4); [split; [exact BP0|auto]|intros d' Q; injection Q as <-; eapply obtains_bytes; eassumption|].
  rewrite E4. cbn [obind]. assert (A4' : arrs h0 h4 [(oc, bc, zc); (ok, bk, zk); (pn, bp, Z.of_N (blen d))]) by (eapply arrs_perm; [|exact A4]; apply (Permutation_cons_append [(oc, bc, zc); (ok, bk, zk)])).
  destruct (N.ltb_spec (blen d) (SIZE_MAX / 4)) as [Ld|Ld].
  2:{ apply FAIL; [exact A4'|]. intros key response Q. destruct (ONE _ _ Q) as (? & ? & _ & _ & Q1 & _). lia. }
  assert (MK4 : made h4 (dv_key dv) bk zk) by (eapply made_frame; [exact MK3|]; intros Q; apply K4; eapply places_b; [right; right; left; reflexivity|exact Q]).
  assert (MC4 : made h4 (made_cert dv r) bc zc) by (eapply made_frame; [exact MC3|]; intros Q; apply K4; eapply places_b; [right; left; reflexivity|exact Q]).
  destruct (enc_step h0 h4 oc bc zc _ (made_cert dv r) PL A4' MC4) as (h5 & E5 & A5 & K5).
  { intros d' Q. unfold made_cert in Q. destruct (dv_key dv) as [k|]; [|discriminate]. destruct DO as (_ & _ & _ & Q1 & _). eapply Q1. exact Q. }
  rewrite E5. cbn [obind]. clear E2 E3 E4 E5.
  destruct (made_cert dv r) as [cert|] eqn:EC.
  2:{ apply FAIL; [exact A5|]. intros key response Q. destruct (ONE _ _ Q) as (? & ? & Q1 & _). discriminate. }
  destruct (N.ltb_spec (blen cert) (SIZE_MAX / 4)) as [Lc|Lc].
  2:{ apply FAIL; [exact A5|]. intros key response Q. destruct (ONE _ _ Q) as (? & ? & Q1 & _ & _ & Q2 & _). injection Q1 as <-. lia. }
  change (create_cert_string (rfc_encode d)) with (pem d). destruct (post3 (pem d) (rfc_encode cert)) as [s response] eqn:E3.
  assert (BC : bytes_ok cert) by (unfold made_cert in EC; destruct (dv_key dv) as [k|]; [|discriminate]; destruct DO as (_ & _ & _ & Q1 & _); eapply Q1; exact EC).
  assert (BR : bytes_ok response) by (eapply PO3; [|exact E3]; apply cstr_ok_bytes_encode; exact BC).
  destruct (Z.ltb_spec s 0) as [Ls|Ls].
  { apply FAIL; [exact A5|]. intros key re Q. destruct (ONE _ _ Q) as (cert' & s' & Q1 & _ & _ & _ & Q2 & Q3). injection Q1 as <-. rewrite E3 in Q2. injection Q2 as <- <-. lia. }
  destruct (Z.leb_spec 400 s) as [Lt|Lt].
  { apply FAIL; [exact A5|]. intros key re Q. destruct (ONE _ _ Q) as (cert' & s' & Q1 & _ & _ & _ & Q2 & Q3). injection Q1 as <-. rewrite E3 in Q2. injection Q2 as <- <-. lia. }
  unfold made_cert in EC. destruct (dv_key dv) as [key|] eqn:EK; [|discriminate].
  assert (EN : enrolled o w f dv post1 post2 post3 key response) by (exists t1, t2, d, cert, s; split; [exact OB|]; split; [exact Ld|]; split; [exists r; auto|]; auto).
  assert (EU : forall k re, enrolled o w f dv post1 post2 post3 k re -> k = key /\ re = response).
  { intros k re Q. destruct (ONE _ _ Q) as (cert' & s' & Q1 & Q2 & _ & _ & Q3 & _). injection Q1 as <-. rewrite E3 in Q3. injection Q3 as _ <-. split; congruence. }
  assert (MK5 : made h5 (Some key) bk zk) by (eapply made_frame; [exact MK4|]; intros Q; apply K5; eapply places_b; [right; left; reflexivity|exact Q]).
  destruct (arrs_content _ _ _ _ _ _ A5) as (h6 & E6 & A6 & K6 & _). rewrite E6. cbn [obind]. rewrite c_str_ok. cbn [obind].
  assert (MK6 : made h6 (Some key) bk zk) by (eapply made_frame; [exact MK5|]; intros Q; apply K6; eapply places_b; [left; reflexivity|exact Q]).
  pose proof (arrs_wf _ _ _ A6) as W6. pose proof (arrs_plenty _ _ _ A6 PL) as PL6. pose proof (decode_arrives h6 (c_string response) W6 PL6 (c_string_bytes _ BR)) as DA.
  pose proof A6 as (_ & S6 & F6). destruct (cells_inv _ _ _ _ _ F6) as (OC0 & C6 & _).
  destruct (rfc_decode (c_string response)) as [got|] eqn:ED.
  - destruct DA as (p & h7 & E7 & P70 & (X7 & F & S7) & L7). rewrite E7. cbn [obind].
    assert (C7 : hp_cell h7 oc = Live (Struct [P 0; I 0])) by (rewrite <- C6; apply X7; eapply (arrs_places _ _ _ oc A6), places_p; left; reflexivity).
    erewrite set_field_at; [|exact OC0|exact C7|reflexivity]. cbn [set_nthv obind]. destruct (Z.ltb_spec (Z.of_N (blen got)) 0) as [Q|_]; [lia|].
    assert (CP : hp_cell h7 p = Live (Buf got)) by (unfold load_buf in L7; rewrite (proj2 (N.eqb_neq _ _) P70) in L7; destruct (hp_cell h7 p) as [|[x|x]|]; try discriminate; congruence).
    assert (FP : F = [p]) by (destruct S7 as (_ & Q & _); inversion Q as [|? ? Q1 _]; subst; destruct Q1 as [[Q1 _]|(_ & _ & Q1)]; [cbn [fst] in Q1; contradiction|exact Q1]). subst F.
    destruct (arrs_attach h0 h6 h7 oc 0%Z _ p got 0%Z A6 X7 S7 P70 CP) as [A8 K8]. erewrite set_field_at; [|exact OC0|apply put_same|reflexivity]. cbn [set_nthv obind].
    destruct (arrs_put _ _ _ _ _ _ (Z.of_N (blen got)) A8) as [A9 K9]. set (h9 := MHeap.put _ oc (Live (Struct [P p; I (Z.of_N (blen got))]))) in *.
    assert (NDO : ~ In oc (places [(ok, bk, zk); (pn, bp, Z.of_N (blen d))])). { destruct S6 as (_ & _ & ND & _). intros Q. eapply (disjoint_of_NoDup [oc] (places [(ok, bk, zk); (pn, bp, Z.of_N (blen d))])); [exact ND|left; reflexivity|exact Q]. }
    assert (CP9 : hp_cell h9 p = Live (Buf got)). { assert (p <> oc) by (intros ->; rewrite CP in C7; discriminate). rewrite K9, K8 by assumption. exact CP. }
    assert (MK9 : made h9 (Some key) bk zk).
    { eapply made_frame; [exact MK6|]. intros Q. assert (IB : In bk (places [(ok, bk, zk); (pn, bp, Z.of_N (blen d))])) by (eapply places_b; [left; reflexivity|exact Q]). assert (bk <> oc) by (intros ->; contradiction). rewrite K9, K8 by assumption.
      apply X7. eapply (arrs_places _ _ _ bk A6). rewrite places_cons. apply in_or_app. right. exact IB. }
    assert (B9 : arrs h0 h9 [(pn, bp, Z.of_N (blen d)); (oc, p, Z.of_N (blen got)); (ok, bk, zk)]) by (eapply arrs_perm; [|exact A9]; symmetry; apply (Permutation_cons_append [(oc, p, Z.of_N (blen got)); (ok, bk, zk)])).
    destruct (arrs_content _ _ _ _ _ _ B9) as (h10 & E10 & A10 & K10 & _). rewrite E10. cbn [obind]. destruct (arrs_drop _ _ _ _ _ A10) as (h11 & E11 & A11 & K11). rewrite E11. cbn [obind].
    assert (NPN : forall a, In a (places [(oc, p, Z.of_N (blen got)); (ok, bk, zk)]) -> a <> pn). { pose proof A10 as (_ & (_ & _ & ND & _) & _). intros a Q ->. eapply (disjoint_of_NoDup [pn] (places [(oc, p, Z.of_N (blen got)); (ok, bk, zk)])); [exact ND|left; reflexivity|exact Q]. }
    assert (K : forall a, In a (places [(oc, p, Z.of_N (blen got)); (ok, bk, zk)]) -> hp_cell h11 a = hp_cell h9 a) by (intros a Q; rewrite K11 by (apply NPN; exact Q); apply K10; exact Q).
    destruct MK9 as (BK0 & -> & CK). right. split.
    { intros [[_ Q]|(k & re & Q & Bd)]; [contradiction|]. destruct (EU _ _ Q) as [-> ->]. apply decode_bad in Bd. destruct Bd as [Bd _]. congruence. }
    exists 0%Z, h11. split; [reflexivity|]. right. split; [reflexivity|]. exists key, got, p, bk. split; [exists response; auto|]. split; [exact A11|]. split; [exact P70|]. split; [exact BK0|].
    split; [rewrite K; [exact CP9|eapply places_b; [left; reflexivity|exact P70]]|rewrite K; [exact CK|eapply places_b; [right; left; reflexivity|exact BK0]]].
  - assert (NS : forall k ce, ~ sign_obtains o w f dv post1 post2 post3 k ce) by (intros k ce (re & Q & Q2); destruct (EU _ _ Q) as [_ ->]; congruence).
    destruct (filter b64_relevant (c_string response)) as [|x rest] eqn:EF.
    + rewrite DA. cbn [obind]. erewrite set_field_at; [|exact OC0|exact C6|reflexivity]. cbn [set_nthv obind]. change ((-1 <? 0)%Z) with true. cbv iota.
      destruct (arrs_put _ _ _ _ _ _ 0%Z A6) as [A7 _]. destruct (err_run _ _ _ _ _ _ _ _ _ _ _ A7) as (h8 & E8 & A8). match type of E8 with sign_err _ _ _ ?h = _ => to_err pn h end. rewrite E8. right. split.
      { intros [[_ Q]|(k & re & Q & Bd)]; [contradiction|]. destruct (EU _ _ Q) as [-> ->]. apply decode_bad in Bd. destruct Bd as [_ Bd]. congruence. }
      exists (-1)%Z, h8. split; [reflexivity|]. left. auto.
    + destruct DA as (p & h7 & E7 & P70 & X7 & S7 & Cp). rewrite E7. cbn [obind].
      assert (C7 : hp_cell h7 oc = Live (Struct [P 0; I 0])) by (rewrite <- C6; apply X7; eapply (arrs_places _ _ _ oc A6), places_p; left; reflexivity).
      erewrite set_field_at; [|exact OC0|exact C7|reflexivity]. cbn [set_nthv obind]. change ((-1 <? 0)%Z) with true. cbv iota. left. split.
      { right. exists key, response. split; [exact EN|]. apply decode_bad. split; [exact ED|rewrite EF; discriminate]. }
      exists DoubleFree. unfold sign_err, h_free_binary_array_content. cbn [fst snd]. rewrite (proj2 (N.eqb_neq _ _) OC0). erewrite get_ptr_at; [|exact OC0|apply put_same|reflexivity]. cbn [obind].
      unfold sys_free. rewrite (proj2 (N.eqb_neq _ _) P70). rewrite put_other by (intros ->; rewrite Cp in C7; discriminate). rewrite Cp. reflexivity.
Qed.
