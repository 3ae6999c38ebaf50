(** Proofs about the registrar's enrolment log. *)
From Coq Require Import Permutation.
From Verif Require Import Base PBase MOs MBase64 MSerialize MVoucher MCrypto MRequest MHeap MArray MVoucherHeap MConfig MLog MHandlers MEnrolLog
  SBase64 SSerialize SHeap SArray SConfig SVoucher SRequest SHandlers SEnrolLog
  PBase64 PHeap PArray PBlocks PConfig PConfigMore PCertFiles POwn PAcquire PAcquire2 PMasa PRegistrar PEnroll PRegistrar2.
Open Scope N_scope.

(** *** Numbers *)
Lemma dec_aux_value : forall f n acc, n < 2 ^ N.of_nat f ->
  fold_left (fun a c => (a * 10 + (Z.of_N c - 48))%Z) (dec_digits_aux f n acc) 0%Z = fold_left (fun a c => (a * 10 + (Z.of_N c - 48))%Z) acc (Z.of_N n).
Proof.
  induction f as [|f IH]; intros n acc H; cbn [dec_digits_aux].
  { change (2 ^ N.of_nat 0) with 1 in H. replace n with 0 by lia. reflexivity. }
  cbv zeta. rewrite Nat2N.inj_succ, N.pow_succ_r' in H. destruct (n <? 10) eqn:E.
  - cbn [fold_left]. f_equal. rewrite N.mod_small by lia. lia.
  - assert (L : n / 10 < 2 ^ N.of_nat f) by (apply N.div_lt_upper_bound; lia).
    rewrite (IH _ _ L). cbn [fold_left]. f_equal. pose proof (N.div_mod n 10 ltac:(lia)) as Q. remember (n / 10) as q. remember (n mod 10) as r. lia.
Qed.
Lemma log2_fuel : forall n, n < 2 ^ N.of_nat (S (N.to_nat (N.log2 n))).
Proof. intros n. rewrite Nat2N.inj_succ, N2Nat.id. destruct (N.eq_dec n 0) as [->|Q]; [reflexivity|]. apply N.log2_spec. lia. Qed.
Lemma dec_digits_value : forall n, dec_value (dec_digits n) = Z.of_N n.
Proof. intros n. unfold dec_value, dec_digits. rewrite dec_aux_value by apply log2_fuel. reflexivity. Qed.
Lemma dec_aux_dec : forall f n acc, Forall is_dec acc -> Forall is_dec (dec_digits_aux f n acc).
Proof.
  induction f as [|f IH]; intros n acc H; cbn [dec_digits_aux]; [exact H|]. cbv zeta.
  assert (Forall is_dec ((48 + n mod 10) :: acc)). { constructor; [|exact H]. unfold is_dec. pose proof (N.mod_lt n 10 ltac:(lia)) as L. remember (n mod 10) as r. lia. }
  destruct (n <? 10); [assumption|]. apply IH. assumption.
Qed.
Lemma dec_digits_dec : forall n, Forall is_dec (dec_digits n).
Proof. intros n. apply dec_aux_dec. constructor. Qed.

Definition hex_step (a : Z) (c : N) : Z := (a * 16 + (Z.of_N c - if (c <=? 57)%N then 48 else 87))%Z.
Lemma hex_step_digit : forall a d, d < 16 -> hex_step a (hex_digit false d) = (a * 16 + Z.of_N d)%Z.
Proof. intros a d H. unfold hex_step, hex_digit. destruct (N.ltb_spec d 10) as [L|L]; [destruct (N.leb_spec (48 + d) 57); lia|destruct (N.leb_spec (87 + d) 57); lia]. Qed.
Lemma hex_digit_hex : forall d, d < 16 -> is_hex (hex_digit false d).
Proof. intros d H. unfold is_hex, hex_digit. destruct (N.ltb_spec d 10); lia. Qed.
Lemma hex_aux_value : forall f n acc, n < 2 ^ N.of_nat f -> fold_left hex_step (hex_digits_aux f n acc) 0%Z = fold_left hex_step acc (Z.of_N n).
Proof.
  induction f as [|f IH]; intros n acc H; cbn [hex_digits_aux].
  { change (2 ^ N.of_nat 0) with 1 in H. replace n with 0 by lia. reflexivity. }
  rewrite Nat2N.inj_succ, N.pow_succ_r' in H. destruct (n <? 16) eqn:E.
  - cbn [fold_left]. f_equal. rewrite hex_step_digit by lia. lia.
  - assert (L : n / 16 < 2 ^ N.of_nat f) by (apply N.div_lt_upper_bound; lia).
    rewrite (IH _ _ L). cbn [fold_left]. f_equal. pose proof (N.mod_lt n 16 ltac:(lia)) as M. rewrite hex_step_digit by exact M. pose proof (N.div_mod n 16 ltac:(lia)) as Q. remember (n / 16) as q. remember (n mod 16) as r. lia.
Qed.
Lemma hex_digits_value : forall n, hex_value (hex_digits n) = Z.of_N n.
Proof. intros n. unfold hex_value, hex_digits. change (fold_left _ ?l 0%Z) with (fold_left hex_step l 0%Z). rewrite hex_aux_value by apply log2_fuel. reflexivity. Qed.
Lemma hex_aux_hex : forall f n acc, Forall is_hex acc -> Forall is_hex (hex_digits_aux f n acc).
Proof.
  induction f as [|f IH]; intros n acc H; cbn [hex_digits_aux]; [exact H|]. destruct (n <? 16) eqn:E; [constructor; [apply hex_digit_hex; lia|exact H]|].
  apply IH. constructor; [|exact H]. apply hex_digit_hex. apply N.mod_lt. lia.
Qed.
Lemma hex_digits_hex : forall n, Forall is_hex (hex_digits n).
Proof. intros n. apply hex_aux_hex. constructor. Qed.
Lemma number_is_text : forall z, number_text z (hex_digits (get_uint64 z)).
Proof.
  intros z. split; [apply hex_digits_hex|]. rewrite hex_digits_value. unfold get_uint64, fits. destruct ((0 <=? z) && (z <? 18446744073709551616))%Z eqn:E; [left|right]; lia.
Qed.

(** *** What is written *)
Lemma names_nodup : NoDup NNAMES.
Proof. apply nodupb_ok. vm_compute. reflexivity. Qed.
Lemma serial_name : In (s2b "serialNumber") NNAMES.
Proof. vm_compute. do 7 right. left. reflexivity. Qed.
Lemma some_none : forall (entry : bytes -> option (option bytes)) names, (exists n, In n names /\ entry n = None) \/ (forall n, In n names -> entry n <> None).
Proof.
  intros entry. induction names as [|n names IH]; [right; intros n []|]. destruct (entry n) eqn:E; [|left; exists n; split; [left; reflexivity|exact E]].
  destruct IH as [(m & M1 & M2)|IH]; [left; exists m; split; [right; exact M1|exact M2]|]. right. intros m [<-|M]; [congruence|apply IH; exact M].
Qed.
Lemma meta_cases : forall v,
  (~ readable_names v /\ crypto_getcert_meta (Some v) = Ok None) \/
  (readable_names v /\ exists i s, crypto_getcert_meta (Some v) = Ok (Some (i, s)) /\ holder_of v (crypto_getcert_serial s)).
Proof.
  intros v. unfold crypto_getcert_meta. destruct (keyvalue_ok (cv_issuer_entry v) NNAMES) as [[(n & I1 & I2) E]|[I (li & E & _)]]; rewrite E; cbn [obind].
  { left. split; [|reflexivity]. intros Q. destruct (Q n I1) as [Q1 _]. contradiction. }
  destruct (keyvalue_ok (cv_subject_entry v) NNAMES) as [[(n & J1 & J2) E2]|[J (ls & E2 & F)]]; rewrite E2; cbn [obind].
  { left. split; [|reflexivity]. intros Q. destruct (Q n J1) as [_ Q1]. contradiction. }
  right. split; [intros n Hn; split; [apply I|apply J]; exact Hn|]. exists li, ls. split; [reflexivity|]. rewrite serial_find, (F _ serial_name names_nodup).
  pose proof (J _ serial_name) as N. unfold holder_of. destruct (cv_subject_entry v (s2b "serialNumber")) as [[t|]|] eqn:Q; cbn [option_map snd]; [exists t; auto|reflexivity|contradiction].
Qed.
Lemma line_text : forall now i l hi hl, entry_text (mk_enrolled now i hi l hl) (log_line now (get_uint64 i) hi (get_uint64 l) hl).
Proof.
  intros. exists (dec_digits (Z.to_N (now mod 18446744073709551616))), (hex_digits (get_uint64 i)), (hex_digits (get_uint64 l)). cbn [en_time en_client en_cert en_client_holder en_cert_holder].
  split; [apply dec_digits_dec|]. split; [rewrite dec_digits_value; pose proof (Z.mod_pos_bound now 18446744073709551616 ltac:(lia)); apply Z2N.id; apply H|]. split; [apply number_is_text|]. split; [apply number_is_text|].
  unfold log_line, holder_text. change (s2b " 0x") with [32; 48; 120]. reflexivity.
Qed.
Lemma holder_fun : forall v a b, holder_of v a -> holder_of v b -> a = b.
Proof. intros v [a|] [b|] A B; cbn [holder_of] in *; [destruct A as (t & A & ->), B as (u & B & ->); congruence|destruct A as (t & A & _); congruence|destruct B as (t & B & _); congruence|reflexivity]. Qed.

(** What one call leaves in the file. *)
Definition entered (now : Z) (opens : bool) (log : bytes) (peer : option cert_seen) (l : cert_seen) (log' : bytes) : Prop :=
  (exists i e line, opens = true /\ peer = Some i /\ describes now i l e /\ entry_text e line /\ log' = log ++ line) \/
  (log' = log /\ ~ (opens = true /\ exists i e, peer = Some i /\ describes now i l e)).
Lemma save_run : forall now opens log peer l, exists log', save_to_log now opens log peer l = Ok log' /\ entered now opens log peer l log'.
Proof.
  intros now opens log peer l. unfold save_to_log. destruct peer as [i|]; cbn [option_map].
  2:{ cbn [crypto_getcert_meta obind]. exists log. split; [reflexivity|]. right. split; [reflexivity|]. intros (_ & i & e & Q & _). discriminate. }
  destruct (meta_cases (cs_view i)) as [[Ni E]|[Ri (a & b & E & Hi)]]; rewrite E; cbn [obind].
  { exists log. split; [reflexivity|]. right. split; [reflexivity|]. intros (_ & i' & e & Q & D & _). injection Q as <-. contradiction. }
  destruct (meta_cases (cs_view l)) as [[Nl E2]|[Rl (a2 & b2 & E2 & Hl)]]; rewrite E2; cbn [obind].
  { exists log. split; [reflexivity|]. right. split; [reflexivity|]. intros (_ & i' & e & Q & _ & D & _). contradiction. }
  destruct opens; (eexists; split; [reflexivity|]).
  - left. exists i, (mk_enrolled now (cs_serial i) (crypto_getcert_serial b) (cs_serial l) (crypto_getcert_serial b2)). eexists. split; [reflexivity|]. split; [reflexivity|]. split; [|split; [apply line_text|reflexivity]].
    repeat split; cbn [en_time en_client en_cert en_client_holder en_cert_holder]; try (apply Ri); try (apply Rl); assumption.
  - right. split; [reflexivity|]. intros (Q & _). discriminate.
Qed.

(** *** The handler *)
Section Handler.
  Context (sc : sign_cert_fn) (seen : bytes -> option cert_seen) (now : Z) (opens : bool) (log : bytes) (peer : option cert_seen).
  Definition noted (out : bytes) (log' : bytes) : Prop :=
    match seen out with None => log' = log | Some s => entered now opens log peer s log' end.
  Definition sim (x : outcome (Z * bytes * heap)) (y : outcome (Z * bytes * heap * bytes)) : Prop :=
    match x with
    | UB k => y = UB k
    | Ok (z, s, h) => exists l, y = Ok (z, s, h, l) /\
        (z = 400%Z /\ l = log \/
         z = 200%Z /\ exists kb cb tb out b zn cp text h0, sc kb cb tb = Some out /\ serialize_array2base64str b out = Ok (zn, PBuf cp text) /\
           heap_string (snd (alloc h0 (Buf text))) (fst (alloc h0 (Buf text))) = Ok s /\ noted out l)
    end.
  Lemma sim_fail : forall h xs, sim (obind (cleanup h xs) (fun h => Ok (400%Z, [], h))) (obind (cleanup h xs) (fun h => Ok (400%Z, [], h, log))).
  Proof. intros h xs. destruct (cleanup h xs); cbn [obind sim]; [|reflexivity]. exists log. auto. Qed.
  Lemma sim_bind : forall A (m : outcome A) f g, (forall x, m = Ok x -> sim (f x) (g x)) -> sim (obind m f) (obind m g).
  Proof. intros A m f g H. destruct m as [x|k]; cbn [obind sim]; [apply H; reflexivity|reflexivity]. Qed.

  Lemma enroll_sim : forall w c h body, sim (registrar_est_simpleenroll sc w c h (option_map cs_view peer) body) (enroll_logged sc w c h seen now opens log peer body).
  Proof.
    intros w c h body. unfold registrar_est_simpleenroll, enroll_logged. apply sim_bind. intros cs _. cbv zeta. apply sim_bind. intros [[rc p] h1] _. destruct (rc <? 0)%Z; [apply sim_fail|].
    apply sim_bind. intros [ct h2] _. destruct (ct =? 0); [apply sim_fail|]. apply sim_bind. intros [ky h3] _. destruct (ky =? 0); [apply sim_fail|].
    apply sim_bind. intros bk _. apply sim_bind. intros bc _. apply sim_bind. intros d _. destruct bk as [bk|], bc as [bc|], d as [d|]; try apply sim_fail.
    apply sim_bind. intros kb _. apply sim_bind. intros cb _. apply sim_bind. intros tb _. destruct (sc kb cb tb) as [out|] eqn:Es; [|apply sim_fail].
    destruct (alloc h3 (Buf out)) as [n h4]. destruct (n =? 0); [apply sim_fail|]. apply sim_bind. intros h5 _. apply sim_bind. intros [z pp] Ez.
    destruct pp as [| |cp text]; try apply sim_fail. destruct (alloc h5 (Buf text)) as [a h6] eqn:Ea. destruct (z <? 0)%Z; [apply sim_fail|].
    apply sim_bind. intros s Hs.
    assert (S : exists l, match seen out with None => Ok log | Some sc0 => save_to_log now opens log peer sc0 end = Ok l /\ noted out l).
    { unfold noted. destruct (seen out) as [sl|]; [|exists log; auto]. destruct (save_run now opens log peer sl) as (l & E & F). exists l. auto. }
    destruct S as (l & El & Nl). rewrite El. cbn [obind]. destruct (cleanup h6 [OBuf a; OBuf n; OArr ct; OArr ky]) as [h7|k] eqn:Ec; cbn [obind sim]; [|reflexivity].
    exists l. split; [reflexivity|]. right. split; [reflexivity|]. exists kb, cb, tb, out, (negb (hp_oom h5 (hp_next h5))), z, cp, text, h5. rewrite Ea. cbn [fst snd]. auto.
  Qed.
End Handler.

Lemma string_of_alloc : forall h text s, In 0 text -> heap_string (snd (alloc h (Buf text))) (fst (alloc h (Buf text))) = Ok s -> s = c_string text.
Proof.
  intros h text s H E. unfold alloc in E. cbv zeta in E. destruct (hp_oom h (hp_next h)); cbn [fst snd] in E; [cbn in E; discriminate|].
  destruct (N.eq_dec (hp_next h) 0) as [Q|Q]; [rewrite Q in E; cbn in E; discriminate|].
  rewrite (heap_string_exact _ _ text Q) in E; [congruence| |exact H]. cbn [MHeap.put hp_cell]. unfold MHeap.put. cbn [hp_cell]. rewrite N.eqb_refl. reflexivity.
Qed.
Lemma encode_inj : forall a b, bytes_ok a -> bytes_ok b -> rfc_encode a = rfc_encode b -> a = b.
Proof. intros a b A B E. pose proof (rfc_encode_decode_groups a A) as Qa. rewrite E, (rfc_encode_decode_groups b B) in Qa. congruence. Qed.

(** C90. *)
Lemma enroll_log_exact : forall sc w c cert key h seen now opens log peer body, (forall k ct tbs out, sc k ct tbs = Some out -> bytes_ok out) ->
  heap_wf h -> plenty h -> heap_string h (rc_ca_cert c) = Ok cert -> heap_string h (rc_ca_key c) = Ok key -> bytes_ok body -> ~ bad_padding (c_string body) ->
  exists status response h' log', enroll_logged sc w c h seen now opens log peer body = Ok (status, response, h', log') /\
    registrar_est_simpleenroll sc w c h (option_map cs_view peer) body = Ok (status, response, h') /\
    (status <> 200%Z /\ log' = log \/
     status = 200%Z /\ exists tbs out, rfc_decode (c_string body) = Some tbs /\ enrolls sc w cert key tbs out /\ response = rfc_encode out /\
       ((exists i l e line, opens = true /\ peer = Some i /\ seen out = Some l /\ describes now i l e /\ entry_text e line /\ log' = log ++ line) \/
        (log' = log /\ ~ (opens = true /\ exists i l e, peer = Some i /\ seen out = Some l /\ describes now i l e)))).
Proof.
  intros sc w c cert key h seen now opens log peer body SC W PL C1 C2 B NB.
  destruct (enroll_run sc w c cert key h (option_map cs_view peer) body SC W PL C1 C2 B) as [[Q _]|[_ (s & r & h1 & Q & _ & _ & A)]]; [contradiction|].
  pose proof (enroll_sim sc seen now opens log peer w c h body) as SM. rewrite Q in SM. cbn [sim] in SM. destruct SM as (l & E & D). exists s, r, h1, l. split; [exact E|]. split; [exact Q|].
  destruct D as [(-> & ->)|(-> & kb & cb & tb & out & b & zn & cp & text & h0 & Es & Ez & Hs & Nl)]; [left; split; [discriminate|reflexivity]|]. right. split; [reflexivity|].
  destruct A as [(tbs & out' & A1 & A2 & _ & A3)|(A3 & _)]; [|discriminate]. injection A3 as A3.
  assert (Bo : bytes_ok out) by (eapply SC; exact Es). assert (Bo' : bytes_ok out') by (destruct A2 as (? & ? & _ & _ & X); eapply SC; exact X).
  assert (text = rfc_encode out ++ [0]).
  { destruct b; [rewrite (encode_spec out Bo) in Ez; destruct (blen out <? SIZE_MAX / 4); congruence|rewrite (encode_no_mem out Bo) in Ez; discriminate]. }
  subst text. apply string_of_alloc in Hs; [|apply in_or_app; right; left; reflexivity]. rewrite c_string_app in Hs by (apply no_nul, rfc_encode_cstr; exact Bo).
  assert (out' = out) as -> by (apply encode_inj; [exact Bo'|exact Bo|congruence]).
  exists tbs, out. split; [exact A1|]. split; [exact A2|]. split; [congruence|]. unfold noted in Nl. destruct (seen out) as [sl|] eqn:Se.
  2:{ right. split; [exact Nl|]. intros (_ & i & l0 & e & _ & X & _). discriminate. }
  destruct Nl as [(i & e & line & N1 & N2 & N3 & N4 & N5)|(N1 & N2)]; [left; exists i, sl, e, line; auto 10|]. right. split; [exact N1|]. intros (X & i & l0 & e & X1 & X2 & X3). injection X2 as <-. apply N2. split; [exact X|]. exists i, e. auto.
Qed.
