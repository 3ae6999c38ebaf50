(** Proofs about the command sign-cert: outcome, cases, identity. *)
From Coq Require Import Permutation.
From Verif Require PChain2.
From Verif Require Import Base PBase MOs MBase64 MSerialize MVoucher MCrypto MRequest MHeap MArray MVoucherHeap MConfig MHandlers MLog MSignCert SBase64 SHeap SArray SConfig SVoucher SRequest SHandlers SPledge SLog SSignCert
  PBase64 PHeap PArray PBlocks PConfig PConfigMore PCertFiles POwn PAcquire PAcquire2 PRequest PRequest2 PRequest3 PRequest4 PRequest5 PRequest6 PRequest7 PMasa PRegistrar PPledge PPledge2 PPledge3 PPledge4 PLog PSignCert PSignCert2.
Open Scope N_scope.

Lemma command_run : forall o w c f dv post1 post2 post3 h, ossl_sane o -> world_ok w -> heap_wf h -> plenty h -> pledge_config h c f -> pledge_text_ok f -> post_ok post1 -> post_ok post2 -> post_ca_ok post3 -> device_ok dv ->
  sign_ends o w f dv post1 post2 post3 h (hp_next h) (hp_next h + 1) (sign_cert_command o w c dv post1 post2 post3 h).
Proof.
  intros o w c f dv post1 post2 post3 h OS WO W PL CF TX PO1 PO2 PO3 DO. unfold sign_cert_command.
  assert (A0 : arrs h h []) by (split; [apply ext_refl; exact W|]; split; [apply st_init; exact W|constructor]).
  destruct (arrs_local _ _ _ A0) as (h1 & E1 & A1 & _ & N1). rewrite E1. destruct (arrs_local _ _ _ A1) as (h2 & E2 & A2 & _ & _). rewrite E2. rewrite N1 in *.
  apply sign_run; try assumption. eapply arrs_perm; [|exact A2]. apply perm_swap.
Qed.

Lemma arrs_kept : forall h0 h l, arrs h0 h l -> kept (hp_next h0) h0 h.
Proof. intros h0 h l ((_ & _ & K & _) & _). exact K. Qed.
Lemma arrs_only : forall h0 h l a, arrs h0 h l -> hp_next h0 <= a -> is_live h a -> In a (places l).
Proof. intros h0 h l a (_ & ((_ & _ & O) & _) & _) L H. apply O; assumption. Qed.

Lemma command_outcome : forall o w c f dv post1 post2 post3 h z h', ossl_sane o -> world_ok w -> heap_wf h -> plenty h -> pledge_config h c f -> pledge_text_ok f -> post_ok post1 -> post_ok post2 -> post_ca_ok post3 -> device_ok dv ->
  sign_cert_command o w c dv post1 post2 post3 h = Ok (z, h') ->
  (z = 0%Z /\ exists key cert, sign_obtains o w f dv post1 post2 post3 key cert /\ both_arrays h h' cert key) \/
  (z = (-1)%Z /\ (forall key cert, ~ sign_obtains o w f dv post1 post2 post3 key cert) /\ no_arrays h h').
Proof.
  intros o w c f dv post1 post2 post3 h z h' OS WO W PL CF TX PO1 PO2 PO3 DO E. destruct (command_run o w c f dv post1 post2 post3 h OS WO W PL CF TX PO1 PO2 PO3 DO) as [[_ [k Q]]|[_ (z' & h1 & Q & D)]]; [congruence|].
  rewrite E in Q. injection Q as <- <-. destruct D as [(-> & A & N)|(-> & key & cert & bc & bk & S & A & Bc & Bk & Cc & Ck)]; [right|left].
  - split; [reflexivity|]. split; [exact N|]. pose proof A as (_ & _ & F). destruct (cells_inv _ _ _ _ _ F) as (_ & C1 & F1). destruct (cells_inv _ _ _ _ _ F1) as (_ & C2 & _).
    split; [exact C1|]. split; [exact C2|]. split; [eapply arrs_kept; exact A|]. intros a La Ha. pose proof (arrs_only _ _ _ _ A La Ha) as Q. cbn in Q. tauto || (destruct Q as [<-|[<-|[]]]; auto).
  - split; [reflexivity|]. exists key, cert. split; [exact S|]. exists bc, bk. pose proof A as (_ & (_ & _ & ND & _) & F). destruct (cells_inv _ _ _ _ _ F) as (_ & C1 & F1). destruct (cells_inv _ _ _ _ _ F1) as (_ & C2 & _).
    split; [split; assumption|]. split; [split; assumption|]. split; [|split; [eapply arrs_kept; exact A|]].
    + intros ->. cbn [map] in ND. change (NoDup (snd (slot_owned (hp_next h, bk, Z.of_N (blen cert))) ++ places [(hp_next h + 1, bk, Z.of_N (blen key))])) in ND.
      eapply disjoint_of_NoDup; [exact ND| |eapply places_b; [left; reflexivity|exact Bk]]. rewrite slot_fst, (proj2 (N.eqb_neq _ _) Bk). right. left. reflexivity.
    + intros a La Ha. pose proof (arrs_only _ _ _ _ A La Ha) as Q. rewrite !places_cons, !slot_fst, (proj2 (N.eqb_neq _ _) Bk), (proj2 (N.eqb_neq _ _) Bc) in Q. cbn in Q. destruct Q as [<-|[<-|[<-|[<-|[]]]]]; auto.
Qed.

Lemma command_survives : forall o w c f dv post1 post2 post3 h, ossl_sane o -> world_ok w -> heap_wf h -> plenty h -> pledge_config h c f -> pledge_text_ok f -> post_ok post1 -> post_ok post2 -> post_ca_ok post3 -> device_ok dv ->
  ((exists k, sign_cert_command o w c dv post1 post2 post3 h = UB k) <-> sign_unsafe o w f dv post1 post2 post3).
Proof.
  intros o w c f dv post1 post2 post3 h OS WO W PL CF TX PO1 PO2 PO3 DO. destruct (command_run o w c f dv post1 post2 post3 h OS WO W PL CF TX PO1 PO2 PO3 DO) as [[U C]|[NU (z' & h1 & Q & D)]]; [tauto|].
  split; [intros [k E]; congruence|intros U; contradiction].
Qed.

(** Only one thing can be obtained, and what is obtained is obtained safely. *)
Lemma enrolled_fun : forall o w f dv p1 p2 p3 k r k' r', enrolled o w f dv p1 p2 p3 k r -> enrolled o w f dv p1 p2 p3 k' r' -> k = k' /\ r = r'.
Proof.
  intros o w f dv p1 p2 p3 k r k' r' (t1 & t2 & d & ct & s & O & _ & (x & G1 & G2 & G3) & _ & P & _) (t1' & t2' & d' & ct' & s' & O' & _ & (x' & G1' & G2' & G3') & _ & P' & _).
  rewrite <- (obtains_fun _ _ _ _ _ _ _ _ _ _ _ O O') in *. assert (x' = x) as -> by congruence. assert (k' = k) as -> by congruence. assert (ct' = ct) as -> by congruence. rewrite P in P'. injection P' as _ <-. auto.
Qed.
Lemma sign_safe : forall o w f dv p1 p2 p3 key cert, sign_obtains o w f dv p1 p2 p3 key cert -> ~ sign_unsafe o w f dv p1 p2 p3.
Proof.
  intros o w f dv p1 p2 p3 key cert (r & E & D) [[_ U]|(k & r' & E' & B)].
  - destruct E as (t1 & t2 & d & ct & s & O & _). exact (PChain2.obtains_safe _ _ _ _ _ _ _ _ O U).
  - destruct (enrolled_fun _ _ _ _ _ _ _ _ _ _ _ E E') as [_ <-]. apply PAcquire.decode_bad in B. destruct B as [B _]. congruence.
Qed.
Lemma command_succeeds : forall o w c f dv post1 post2 post3 h key cert, ossl_sane o -> world_ok w -> heap_wf h -> plenty h -> pledge_config h c f -> pledge_text_ok f -> post_ok post1 -> post_ok post2 -> post_ca_ok post3 -> device_ok dv ->
  sign_obtains o w f dv post1 post2 post3 key cert -> exists h', sign_cert_command o w c dv post1 post2 post3 h = Ok (0%Z, h') /\ both_arrays h h' cert key.
Proof.
  intros o w c f dv post1 post2 post3 h key cert OS WO W PL CF TX PO1 PO2 PO3 DO S. destruct (command_run o w c f dv post1 post2 post3 h OS WO W PL CF TX PO1 PO2 PO3 DO) as [[U _]|[_ (z & h' & Q & _)]]; [destruct (sign_safe _ _ _ _ _ _ _ _ _ S U)|].
  destruct (command_outcome o w c f dv post1 post2 post3 h z h' OS WO W PL CF TX PO1 PO2 PO3 DO Q) as [(-> & k & ct & S' & B)|(_ & N & _)]; [|destruct (N _ _ S)].
  exists h'. split; [exact Q|]. destruct S as (r & E & D), S' as (r' & E' & D'). destruct (enrolled_fun _ _ _ _ _ _ _ _ _ _ _ E E') as [<- <-]. rewrite D in D'. injection D' as <-. exact B.
Qed.

(** *** Identity *)
Lemma digit_injb : forallb (fun a => forallb (fun b => (a =? b) || negb (digit16 true a =? digit16 true b)) (map N.of_nat (seq 0 16))) (map N.of_nat (seq 0 16)) = true.
Proof. vm_compute. reflexivity. Qed.
Lemma digit_inj : forall a b, a < 16 -> b < 16 -> digit16 true a = digit16 true b -> a = b.
Proof.
  intros a b A B E. pose proof digit_injb as H. rewrite forallb_forall in H. assert (R : forall x, x < 16 -> In x (map N.of_nat (seq 0 16))) by (intros x Hx; apply in_map_iff; exists (N.to_nat x); split; [apply N2Nat.id|apply in_seq; lia]).
  specialize (H a (R a A)). rewrite forallb_forall in H. specialize (H b (R b B)). rewrite E, N.eqb_refl in H. lia.
Qed.
Lemma hex_prefix : forall n r r', bytes_ok r -> bytes_ok r' -> List.length r = S n -> List.length r' = S n ->
  (firstn (2 * n + 1) (hex_text true r) = firstn (2 * n + 1) (hex_text true r') <-> firstn n r = firstn n r' /\ nth n r 0 / 16 = nth n r' 0 / 16).
Proof.
  induction n as [|n IH]; intros [|x r] [|y r'] B B' L L'; try discriminate L; try discriminate L'.
  - inversion B as [|? ? Bx _]; inversion B' as [|? ? By _]; subst. cbn [Nat.mul Nat.add firstn hex_text flat_map app nth]. split; [intros Q; injection Q as Q; split; [reflexivity|]; apply digit_inj in Q; lia|]. intros [_ ->]. reflexivity.
  - inversion B as [|? ? Bx B1]; inversion B' as [|? ? By B2]; subst. injection L as L. injection L' as L'. specialize (IH r r' B1 B2 L L').
    replace (2 * S n + 1)%nat with (S (S (2 * n + 1))) by lia. unfold hex_text in *. cbn [flat_map app firstn nth]. fold (hex_text true r) (hex_text true r') in *.
    split.
    + intros Q. injection Q as Q1 Q2 Q3. apply IH in Q3. destruct Q3 as [-> Q3]. split; [|exact Q3]. f_equal. apply digit_inj in Q1; [|lia|lia]. apply digit_inj in Q2; [|lia|lia]. lia.
    + intros [Q1 Q2]. injection Q1 as -> Q1. do 2 f_equal. apply IH. auto.
Qed.
Lemma subject_same : forall dv dv' r r', bytes_ok r -> bytes_ok r' -> blen r = 8 -> blen r' = 8 ->
  (subject_serial (meta_of dv r) = subject_serial (meta_of dv' r') <-> firstn 7 r = firstn 7 r' /\ nth 7 r 0 / 16 = nth 7 r' 0 / 16).
Proof. intros dv dv' r r' B B' L L'. unfold blen in *. apply (hex_prefix 7 r r'); (assumption || lia). Qed.
Lemma serial_same : forall dv dv', device_ok dv -> device_ok dv' ->
  serial_of dv < 18446744073709551616 /\
  (serial_of dv = serial_of dv' <-> dv_rand dv (dv_now dv) 2 mod 4 = dv_rand dv' (dv_now dv') 2 mod 4 /\ dv_rand dv (dv_now dv) 3 = dv_rand dv' (dv_now dv') 3 /\ dv_rand dv (dv_now dv) 4 = dv_rand dv' (dv_now dv') 4).
Proof.
  intros dv dv' (_ & _ & _ & _ & R) (_ & _ & _ & _ & R'). unfold serial_of. pose proof (R (dv_now dv) 3%nat). pose proof (R (dv_now dv) 4%nat). pose proof (R' (dv_now dv') 3%nat). pose proof (R' (dv_now dv') 4%nat).
  pose proof (N.mod_lt (dv_rand dv (dv_now dv) 2) 4 ltac:(discriminate)). pose proof (N.mod_lt (dv_rand dv' (dv_now dv') 2) 4 ltac:(discriminate)).
  generalize dependent (dv_rand dv (dv_now dv) 2 mod 4). generalize dependent (dv_rand dv' (dv_now dv') 2 mod 4). generalize dependent (dv_rand dv (dv_now dv) 3). generalize dependent (dv_rand dv' (dv_now dv') 3). generalize dependent (dv_rand dv (dv_now dv) 4). generalize dependent (dv_rand dv' (dv_now dv') 4). intros. lia.
Qed.

(** generate_sign_cert alone. *)
Lemma generate_exact : forall dv h oc ok r key cert, device_ok dv -> heap_wf h -> plenty h -> oc <> 0 -> ok <> 0 -> oc <> ok ->
  hp_cell h oc = Live (Struct [P 0; I 0]) -> hp_cell h ok = Live (Struct [P 0; I 0]) -> dv_random dv = Some r -> dv_key dv = Some key -> dv_cert dv (meta_of dv r) key = Some cert ->
  exists h' bc bk, generate_sign_cert dv h oc ok = Ok (0%Z, h') /\ array_at h' oc bc cert /\ array_at h' ok bk key.
Proof.
  intros dv h oc ok r key cert DO W PL OC OK NE C1 C2 ER EK EC. unfold generate_sign_cert. rewrite ER. destruct (rands_text dv r DO ER) as (m & n & E1 & len & E2 & E3). rewrite E1. cbn [obind fst]. rewrite E2. cbn [obind]. rewrite E3. cbn [obind].
  assert (M : sign_meta dv (firstn 15 (hex_text true r)) = meta_of dv r) by (unfold sign_meta, meta_of; rewrite (serial_value dv DO); reflexivity). rewrite M. clear M E1 E2 E3. rewrite EK. cbn [der_out].
  assert (LT : forall a (g : heap) b, heap_wf g -> hp_cell g a = Live b -> a < hp_next g) by (intros a g b (_ & _ & Q) E; destruct (N.lt_ge_cases a (hp_next g)) as [L|L]; [exact L|rewrite (Q _ L) in E; discriminate]).
  destruct (plenty_alloc h (Buf key) W PL) as (a & h1 & Ea & A0 & Aa & Hn & Ca & Cx & Ex & _). rewrite Ea, (proj2 (N.eqb_neq _ _) A0). pose proof (LT _ _ _ W C1) as L1. pose proof (LT _ _ _ W C2) as L2.
  erewrite set_field_at; [|exact OK|rewrite Cx by lia; exact C2|reflexivity]. cbn [set_nthv obind]. erewrite set_field_at; [|exact OK|apply put_same|reflexivity]. cbn [set_nthv obind]. rewrite to_size_len.
  set (h2 := MHeap.put _ ok (Live (Struct [P a; I (Z.of_N (blen key))]))). assert (X2 : forall y, y <> ok -> hp_cell h2 y = hp_cell h1 y) by (intros y Hy; unfold h2; rewrite !put_other by exact Hy; reflexivity).
  assert (Ca2 : hp_cell h2 a = Live (Buf key)) by (rewrite X2 by lia; exact Ca). unfold load_buf. rewrite (proj2 (N.eqb_neq _ _) A0), Ca2. cbn [obind]. rewrite EC. cbn [der_out].
  assert (W2 : heap_wf h2). { unfold h2. eapply wf_write; [|exact OK|apply put_same|auto]. eapply wf_write; [exact (proj1 Ex)|exact OK|rewrite Cx by lia; exact C2|auto]. }
  assert (PL2 : plenty h2) by (intros y; change (hp_oom h2 y) with (hp_oom h1 y); destruct Ex as (_ & _ & _ & Q); rewrite Q; apply PL).
  destruct (plenty_alloc h2 (Buf cert) W2 PL2) as (b & h3 & Eb & B0 & Bb & _ & Cb & Cy & _ & _). rewrite Eb, (proj2 (N.eqb_neq _ _) B0). change (hp_next h2) with (hp_next h1) in Bb.
  assert (C3 : hp_cell h3 oc = Live (Struct [P 0; I 0])) by (rewrite Cy by lia; rewrite X2 by exact NE; rewrite Cx by lia; exact C1).
  erewrite set_field_at; [|exact OC|exact C3|reflexivity]. cbn [set_nthv obind]. erewrite set_field_at; [|exact OC|apply put_same|reflexivity]. cbn [set_nthv obind]. rewrite to_size_len.
  eexists. exists b, a. split; [reflexivity|]. split; (split; [|]).
  - apply put_same.
  - rewrite !put_other by lia. exact Cb.
  - rewrite !put_other by (intros Q; apply NE; symmetry; exact Q). rewrite Cy by lia. unfold h2. apply put_same.
  - rewrite !put_other by lia. rewrite Cy by lia. exact Ca2.
Qed.

(** *** Cases *)
Definition sign_device (r : option bytes) (key : option bytes) : device :=
  mk_device (fun s i => (s + 1000 * N.of_nat i) mod 2147483648) 1700000000 r (repeat 170 17) key (fun m k => Some (map (fun b => b mod 256) (k ++ subject_serial m ++ [cm_serial m]))).
Definition sign_reply (s : Z) (r : bytes) : post_ca_fn := fun _ _ => (s, r).
Definition rnd1 : bytes := [1; 35; 69; 103; 137; 171; 205; 239].
Definition rnd2 : bytes := [1; 35; 69; 103; 137; 171; 205; 238].


Lemma sign_device_ok : forall r key, (forall d, r = Some d -> bytes_ok d /\ blen d = 8) -> (forall d, key = Some d -> bytes_ok d) -> device_ok (sign_device r key).
Proof.
  intros r key R K. split; [reflexivity|]. split; [exact R|]. split; [exact K|]. split.
  - intros m k d Q. injection Q as <-. unfold bytes_ok. rewrite Forall_forall. intros x Hx. apply in_map_iff in Hx. destruct Hx as (y & <- & _). apply N.mod_lt. discriminate.
  - intros s i. cbn [sign_device dv_rand]. pose proof (N.mod_lt (s + 1000 * N.of_nat i) 2147483648 ltac:(discriminate)). lia.
Qed.
Lemma sign_reply_ok : forall s r, bytes_ok r -> post_ca_ok (sign_reply s r).
Proof. intros s r B ca body s' r' _ Q. injection Q as _ <-. exact B. Qed.
Lemma rnd_ok : forall d, Some rnd1 = Some d \/ Some rnd2 = Some d -> bytes_ok d /\ blen d = 8.
Proof. intros d [Q|Q]; injection Q as <-; (split; [apply bytes_okb_ok; reflexivity|reflexivity]). Qed.
Lemma rnd1_ok : forall d, Some rnd1 = Some d -> bytes_ok d /\ blen d = 8.
Proof. intros d Q. apply rnd_ok. left. exact Q. Qed.
Lemma rnd2_ok : forall d, Some rnd2 = Some d -> bytes_ok d /\ blen d = 8.
Proof. intros d Q. apply rnd_ok. right. exact Q. Qed.

Definition sign_heap : heap := pledge_case (s2b "CQ==").
Definition sign_contact1 : post_cert_fn := contact 404 [] [2; 7].
Definition sign_contact2 : post_cert_fn := contact 200 (rfc_encode issued) [2; 7].
Lemma sign_case_setting : ossl_sane toy /\ world_ok pledge_world /\ heap_wf sign_heap /\ plenty sign_heap /\ pledge_config sign_heap pledge_case_conf (pledge_case_files (s2b "CQ==")) /\ pledge_text_ok (pledge_case_files (s2b "CQ==")) /\ post_ok sign_contact1 /\ post_ok sign_contact2.
Proof.
  assert (CN : cstr_ok (s2b "CQ==")) by (apply cstr_okb_ok; reflexivity).
  split; [exact toy_sane|]. split; [exact pledge_world_ok|]. split; [apply pledge_case_wf|]. split; [intros a; reflexivity|]. split; [exact (pledge_case_config _ CN)|]. split; [exact (pledge_case_text _ CN)|].
  split; [apply contact_ok; [constructor|apply bytes_okb_ok; reflexivity]|]. apply contact_ok; [exact issued_ok|apply bytes_okb_ok; reflexivity].
Qed.

(** The answer is taken for the certificate of whatever key was generated. *)
Lemma unrelated_refuted : exists o w c f post1 post2 post3 h dv dv' key key' cert h1 h2, ossl_sane o /\ world_ok w /\ heap_wf h /\ plenty h /\ pledge_config h c f /\ pledge_text_ok f /\ post_ok post1 /\ post_ok post2 /\ post_ca_ok post3 /\ device_ok dv /\ device_ok dv' /\
  key <> key' /\ sign_cert_command o w c dv post1 post2 post3 h = Ok (0%Z, h1) /\ both_arrays h h1 cert key /\ sign_cert_command o w c dv' post1 post2 post3 h = Ok (0%Z, h2) /\ both_arrays h h2 cert key'.
Proof.
  destruct sign_case_setting as (S1 & S2 & S3 & S4 & S5 & S6 & S7 & S8). assert (S9 : post_ca_ok (sign_reply 200 (s2b "AA=="))) by (apply sign_reply_ok, bytes_okb_ok; reflexivity).
  assert (D1 : device_ok (sign_device (Some rnd1) (Some [1; 2]))) by (apply sign_device_ok; [exact rnd1_ok|intros d Q; injection Q as <-; apply bytes_okb_ok; reflexivity]).
  assert (D2 : device_ok (sign_device (Some rnd1) (Some [3; 4]))) by (apply sign_device_ok; [exact rnd1_ok|intros d Q; injection Q as <-; apply bytes_okb_ok; reflexivity]).
  assert (R1 : exists h1, sign_cert_command toy pledge_world pledge_case_conf (sign_device (Some rnd1) (Some [1; 2])) sign_contact1 sign_contact2 (sign_reply 200 (s2b "AA==")) sign_heap = Ok (0%Z, h1)) by (eexists; vm_compute; reflexivity).
  assert (R2 : exists h1, sign_cert_command toy pledge_world pledge_case_conf (sign_device (Some rnd1) (Some [3; 4])) sign_contact1 sign_contact2 (sign_reply 200 (s2b "AA==")) sign_heap = Ok (0%Z, h1)) by (eexists; vm_compute; reflexivity).
  destruct R1 as [h1 R1], R2 as [h2 R2].
  destruct (command_outcome _ _ _ _ _ _ _ _ _ _ _ S1 S2 S3 S4 S5 S6 S7 S8 S9 D1 R1) as [[_ (k1 & c1 & (p1 & E1 & Q1) & B1)]|[Q _]]; [|discriminate Q].
  destruct (command_outcome _ _ _ _ _ _ _ _ _ _ _ S1 S2 S3 S4 S5 S6 S7 S8 S9 D2 R2) as [[_ (k2 & c2 & (p2 & E2 & Q2) & B2)]|[Q _]]; [|discriminate Q].
  destruct E1 as (? & ? & ? & ? & ? & _ & _ & (? & _ & K1 & _) & _ & P1 & _). destruct E2 as (? & ? & ? & ? & ? & _ & _ & (? & _ & K2 & _) & _ & P2 & _).
  injection K1 as <-. injection K2 as <-. injection P1 as _ <-. injection P2 as _ <-. rewrite Q1 in Q2. injection Q2 as <-.
  exists toy, pledge_world, pledge_case_conf, (pledge_case_files (s2b "CQ==")), sign_contact1, sign_contact2, (sign_reply 200 (s2b "AA==")), sign_heap, (sign_device (Some rnd1) (Some [1; 2])), (sign_device (Some rnd1) (Some [3; 4])), [1; 2], [3; 4], c1, h1, h2.
  repeat (split; [assumption|]). split; [discriminate|]. auto.
Qed.

(** An answer with bad base64 padding. *)
Lemma answer_refuted : exists o w c f post1 post2 post3 h dv k, ossl_sane o /\ world_ok w /\ heap_wf h /\ plenty h /\ pledge_config h c f /\ pledge_text_ok f /\ post_ok post1 /\ post_ok post2 /\ post_ca_ok post3 /\ device_ok dv /\
  ~ pledge_unsafe o w f post1 post2 /\ sign_cert_command o w c dv post1 post2 post3 h = UB k.
Proof.
  destruct sign_case_setting as (S1 & S2 & S3 & S4 & S5 & S6 & S7 & S8).
  exists toy, pledge_world, pledge_case_conf, (pledge_case_files (s2b "CQ==")), sign_contact1, sign_contact2, (sign_reply 200 (s2b "A===")), sign_heap, (sign_device (Some rnd1) (Some [1; 2])), DoubleFree.
  do 8 (split; [assumption|]). split; [apply sign_reply_ok, bytes_okb_ok; reflexivity|]. split; [apply sign_device_ok; [exact rnd1_ok|intros d Q; injection Q as <-; apply bytes_okb_ok; reflexivity]|].
  split; [|vm_compute; reflexivity]. assert (C8 : hp_cell sign_heap 8 = Live (Struct [P 0; I 0])) by reflexivity.
  intros U. apply (pledge_survives_iff toy pledge_world pledge_case_conf (pledge_case_files (s2b "CQ==")) sign_contact1 sign_contact2 sign_heap 8 S1 S2 S3 S4 S5 S6 S7 S8 ltac:(discriminate) C8) in U. destruct U as [k U]. vm_compute in U. discriminate U.
Qed.

Definition two_arrays : heap := mk_heap 3 (cells [Fresh; Live (Struct [P 0; I 0]); Live (Struct [P 0; I 0])]) (fun _ => false).
(** Failing to generate a key or a certificate is not reported. *)
Lemma generate_refuted : exists dv h oc ok h', device_ok dv /\ heap_wf h /\ plenty h /\ oc <> 0 /\ ok <> 0 /\ oc <> ok /\ hp_cell h oc = Live (Struct [P 0; I 0]) /\ hp_cell h ok = Live (Struct [P 0; I 0]) /\
  dv_key dv = None /\ generate_sign_cert dv h oc ok = Ok (0%Z, h') /\ hp_cell h' oc = Live (Struct [P 0; I 18446744073709551615]) /\ hp_cell h' ok = Live (Struct [P 0; I 18446744073709551615]).
Proof.
  exists (sign_device (Some rnd1) None), two_arrays, 1, 2. eexists. split; [apply sign_device_ok; [exact rnd1_ok|discriminate]|]. split; [apply cells_wf; [lia|vm_compute; lia|reflexivity]|].
  split; [intros a; reflexivity|]. do 3 (split; [discriminate|]). do 3 (split; [reflexivity|]). split; [vm_compute; reflexivity|]. split; vm_compute; reflexivity.
Qed.

(** Different random values, the same certificate. *)
Lemma subject_refuted : exists dv dv' h oc ok h' h'' bc cert, device_ok dv /\ device_ok dv' /\ heap_wf h /\ plenty h /\ dv_random dv <> None /\ dv_random dv' <> None /\ dv_random dv <> dv_random dv' /\
  generate_sign_cert dv h oc ok = Ok (0%Z, h') /\ generate_sign_cert dv' h oc ok = Ok (0%Z, h'') /\ array_at h' oc bc cert /\ array_at h'' oc bc cert /\
  (forall m m' key, blen (subject_serial m) = blen (subject_serial m') -> bytes_ok (subject_serial m) -> bytes_ok (subject_serial m') -> dv_cert dv m key = dv_cert dv' m' key -> subject_serial m = subject_serial m').
Proof.
  exists (sign_device (Some rnd1) (Some [1; 2])), (sign_device (Some rnd2) (Some [1; 2])), two_arrays, 1, 2. eexists. eexists. exists 4, ([1; 2] ++ s2b "0123456789ABCDE" ++ [160]).
  split; [apply sign_device_ok; [exact rnd1_ok|intros d Q; injection Q as <-; apply bytes_okb_ok; reflexivity]|]. split; [apply sign_device_ok; [exact rnd2_ok|intros d Q; injection Q as <-; apply bytes_okb_ok; reflexivity]|].
  split; [apply cells_wf; [lia|vm_compute; lia|reflexivity]|]. split; [intros a; reflexivity|]. do 3 (split; [discriminate|]). split; [vm_compute; reflexivity|]. split; [vm_compute; reflexivity|].
  split; [split; vm_compute; reflexivity|]. split; [split; vm_compute; reflexivity|].
  intros m m' key L B B' Q. injection Q as Q. rewrite !map_app in Q. apply app_inv_head in Q. unfold blen in L.
  assert (I : forall l, bytes_ok l -> map (fun b => b mod 256) l = l) by (intros l Bl; induction Bl as [|x l Hx _ IH]; [reflexivity|]; cbn [map]; rewrite IH, N.mod_small by exact Hx; reflexivity).
  rewrite (I _ B), (I _ B') in Q. apply (f_equal (firstn (List.length (subject_serial m)))) in Q. rewrite firstn_app, firstn_all, Nat.sub_diag in Q. replace (List.length (subject_serial m)) with (List.length (subject_serial m')) in Q by lia. rewrite firstn_app, firstn_all, Nat.sub_diag in Q. cbn [firstn] in Q. rewrite !app_nil_r in Q. exact Q.
Qed.

Lemma serial_refuted : exists dv dv', device_ok dv /\ device_ok dv' /\ dv_random dv <> dv_random dv' /\ dv_key dv <> dv_key dv' /\
  exists h oc ok h' h'', heap_wf h /\ plenty h /\ generate_sign_cert dv h oc ok = Ok (0%Z, h') /\ generate_sign_cert dv' h oc ok = Ok (0%Z, h'') /\
    (exists bc bc' cert cert' s, array_at h' oc bc (cert ++ [s]) /\ array_at h'' oc bc' (cert' ++ [s]) /\ cert <> cert') /\ serial_of dv = serial_of dv'.
Proof.
  exists (sign_device (Some rnd1) (Some [1; 2])), (sign_device (Some (rev rnd1)) (Some [3; 4])). split; [apply sign_device_ok; [exact rnd1_ok|intros d Q; injection Q as <-; apply bytes_okb_ok; reflexivity]|].
  split; [apply sign_device_ok; [intros d Q; injection Q as <-; split; [apply bytes_okb_ok; reflexivity|reflexivity]|intros d Q; injection Q as <-; apply bytes_okb_ok; reflexivity]|]. split; [discriminate|]. split; [discriminate|].
  exists two_arrays, 1, 2. eexists. eexists. split; [apply cells_wf; [lia|vm_compute; lia|reflexivity]|]. split; [intros a; reflexivity|]. split; [vm_compute; reflexivity|]. split; [vm_compute; reflexivity|]. split; [|reflexivity].
  exists 4, 4, ([1; 2] ++ s2b "0123456789ABCDE"), ([3; 4] ++ s2b "EFCDAB896745230"), 160. split; [split; vm_compute; reflexivity|]. split; [split; vm_compute; reflexivity|]. discriminate.
Qed.

Lemma obtains_case : post_ca_ok (sign_reply 200 (s2b "AQIDBA==")) /\ device_ok (sign_device (Some rnd1) (Some [1; 2])) /\
  exists cert, sign_obtains toy pledge_world (pledge_case_files (s2b "CQ==")) (sign_device (Some rnd1) (Some [1; 2])) sign_contact1 sign_contact2 (sign_reply 200 (s2b "AQIDBA==")) [1; 2] cert.
Proof.
  destruct sign_case_setting as (S1 & S2 & S3 & S4 & S5 & S6 & S7 & S8). assert (S9 : post_ca_ok (sign_reply 200 (s2b "AQIDBA=="))) by (apply sign_reply_ok, bytes_okb_ok; reflexivity).
  assert (D1 : device_ok (sign_device (Some rnd1) (Some [1; 2]))) by (apply sign_device_ok; [exact rnd1_ok|intros d Q; injection Q as <-; apply bytes_okb_ok; reflexivity]).
  split; [exact S9|]. split; [exact D1|].
  assert (R1 : exists h1, sign_cert_command toy pledge_world pledge_case_conf (sign_device (Some rnd1) (Some [1; 2])) sign_contact1 sign_contact2 (sign_reply 200 (s2b "AQIDBA==")) sign_heap = Ok (0%Z, h1)) by (eexists; vm_compute; reflexivity).
  destruct R1 as [h1 R1]. destruct (command_outcome _ _ _ _ _ _ _ _ _ _ _ S1 S2 S3 S4 S5 S6 S7 S8 S9 D1 R1) as [[_ (k1 & c1 & O & _)]|[Q _]]; [|discriminate Q].
  exists c1. assert (k1 = [1; 2]) as -> by (destruct O as (r & (? & ? & ? & ? & ? & _ & _ & (x & _ & G & _) & _) & _); cbn in G; congruence). exact O.
Qed.
