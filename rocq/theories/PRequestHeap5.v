(** The claims about the memory of the two voucher requests; witnesses. *)
From Coq Require Import Permutation ZifyBool ZifyNat ZifyN.
From Verif Require Import Base PBase MBase64 MSerialize MOs MJsmn MVoucher SVoucher PVoucher SJson PVoucherText PVoucherRound MCrypto MRequest SRequest PRequest PRequest2 PRequest3 PRequest5 PRequest6 PRequest7
  MHeap MArray MVoucherHeap MConfig MHandlers MSerialHeap MRequestHeap SHeap SArray SVoucherHeap SSerialHeap PHeap PArray PBlocks POwn PHold
  PVoucherHeap PVoucherHeapJson PVoucherHeapOom PVoucherHeapFind PAcquire PSerialHeap PSerialHeap3 PSerialHeap4 SRequestHeap PRequestHeap PRequestHeap2 PRequestHeap3 PRequestHeap4.
Open Scope N_scope.

Lemma gets_new : forall h p h' t, gets h (Ok (p, h')) t -> new_array h t p h'.
Proof.
  intros h p h' t [(_ & _ & K & _) [(-> & H & Q)|(d & b & -> & (C & D) & H)]]; (split; [exact K|]).
  - left. split; [reflexivity|]. split; [exact Q|]. apply hold_none. exact H.
  - right. exists d, b. split; [reflexivity|]. destruct (hold_in _ _ _ p H (or_introl eq_refl)) as (_ & P0 & _). split; [exact P0|]. split; [exact C|].
    pose proof H as (_ & _ & Dd & _ & V). split.
    + destruct D as [D|[B0 D]]; [left; exact D|right]. split; [exact B0|]. split; [|exact D]. intros ->. congruence.
    + intros a Ha. rewrite (V a Ha). cbn [In]. unfold nz. destruct (b =? 0) eqn:E.
      * apply N.eqb_eq in E. split; [intros [X|[]]; auto|intros [X|[_ X]]; [auto|contradiction]].
      * apply N.eqb_neq in E. cbn [In]. split; [intros [X|[X|[]]]; auto|intros [X|[X _]]; auto].
Qed.
Lemma gotten_some : forall lk h p h' t, gotten lk h (Ok (p, h')) t -> some_array h t p h'.
Proof.
  intros lk h p h' t [(_ & _ & K & _) [(-> & H & Q)|(d & b & -> & (C & D) & H)]]; (split; [exact K|]).
  - left. split; [reflexivity|exact Q].
  - right. exists d, b. split; [reflexivity|]. destruct (hold_in _ _ _ p H (or_introl eq_refl)) as (_ & P0 & _). split; [exact P0|]. split; [exact C|].
    destruct D as [D|[B0 D]]; [left; exact D|right]. split; [exact B0|]. split; [|exact D]. intros ->. congruence.
Qed.

Lemma pledge_memory : forall o h0 created serial nonce rtls cert key extra s n rt c k l r,
  heap_wf h0 -> string_at h0 serial s -> array_at h0 (nonce, 0%nat) n -> array_at h0 (rtls, 0%nat) rt -> array_at h0 (cert, 0%nat) c -> array_at h0 (key, 0%nat) k ->
  h_certlist h0 extra = Ok l -> ba_bytes n -> ba_bytes rt ->
  (forall t s' n' rt', created = Some t -> s = Some s' -> opt_has n n' -> ba_has rt rt' -> text_fits (pledge_content t s' n' rt')) ->
  sign_pledge_voucher_request o created s n rt c k l = Ok r ->
  match h_sign_pledge_voucher_request o h0 created serial nonce rtls cert key extra with
  | UB e => e = NullDeref /\ starved h0
  | Ok (p, h') => new_array h0 r p h'
  end.
Proof.
  intros o h0 created serial nonce rtls cert key extra s n rt c k l r W As An Art Ac Ak Al Bn Brt Tf Er.
  pose proof (pledge_gets o h0 created serial nonce rtls cert key extra s n rt c k l W As An Art Ac Ak Al Bn Brt Tf) as X. rewrite Er in X. cbn [ends] in X.
  destruct (h_sign_pledge_voucher_request o h0 created serial nonce rtls cert key extra) as [[p h']|e]; [|exact X]. apply gets_new. exact X.
Qed.

Lemma registrar_memory : forall o h0 cms created serial issuer rtls cert key vcerts vstore extra x s i rt c k lv ls l r,
  ossl_sane o -> heap_wf h0 -> array_at h0 cms x -> string_at h0 serial s -> array_at h0 (issuer, 0%nat) i -> array_at h0 (rtls, 0%nat) rt -> array_at h0 (cert, 0%nat) c -> array_at h0 (key, 0%nat) k ->
  h_certlist h0 vcerts = Ok lv -> h_certlist h0 vstore = Ok ls -> h_certlist h0 extra = Ok l -> ba_bytes x -> ba_bytes i ->
  (forall t s' n' i' x' xb pvr, created = Some t -> s = Some s' -> ba_has i i' -> ba_has x x' -> x = Some xb -> says o xb lv ls false pvr None -> nonce_is pvr n' -> text_fits (registrar_content t s' n' i' x')) ->
  sign_voucher_request o x created s i rt c k lv ls l = Ok r ->
  match h_sign_voucher_request o h0 cms created serial issuer rtls cert key vcerts vstore extra with
  | UB e => e = NullDeref /\ starved h0
  | Ok (p, h') => some_array h0 r p h' /\ (clean_content o x lv ls -> new_array h0 r p h')
  end.
Proof.
  intros o h0 cms created serial issuer rtls cert key vcerts vstore extra x s i rt c k lv ls l r So W Ax As Ai Art Ac Ak Alv Als Al Bx Bi Tf Er.
  destruct (registrar_by o h0 cms created serial issuer rtls cert key vcerts vstore extra x s i rt c k lv ls l So W Ax As Ai Art Ac Ak Alv Als Al Bx Bi Tf) as (lk & HL & X). rewrite Er in X. cbn [ends_by] in X.
  destruct (h_sign_voucher_request o h0 cms created serial issuer rtls cert key vcerts vstore extra) as [[p h']|e]; [|exact X]. split; [eapply gotten_some; exact X|].
  intros Cl. apply gets_new. apply gotten_gets. rewrite HL in X; [exact X|]. exact Cl.
Qed.

(** With enough memory nothing crashes, and a result is the signed request. *)
Lemma new_plenty : forall h0 t p h', plenty h0 -> new_array h0 t p h' -> (p = 0 <-> t = None).
Proof.
  intros h0 t p h' PL [_ [(-> & [->|R] & _)|(d & b & -> & P0 & _)]]; [tauto|exfalso; apply (plenty_not_starved _ PL); eapply refused_starved; exact R|]. split; [contradiction|discriminate].
Qed.

(** *** Witnesses *)
Definition memory (l : list block) (oom : N -> bool) : heap :=
  mk_heap (1 + N.of_nat (List.length l)) (fun a => if a =? 0 then Fresh else match nth_error l (N.to_nat (a - 1)) with Some b => Live b | None => Fresh end) oom.
Lemma memory_wf : forall l oom, heap_wf (memory l oom).
Proof.
  intros l oom. split; [cbn [memory hp_next]; lia|]. split; [reflexivity|]. intros a Ha. cbn [memory hp_next hp_cell] in *. destruct (a =? 0); [reflexivity|].
  rewrite (proj2 (nth_error_None l (N.to_nat (a - 1)))); [reflexivity|lia].
Qed.

(** A desk with a serial number (1), the registrar's certificate (2) and key
    (4), the pledge's certificate (6) and key (8), a nonce (10), an issuer (12),
    a signed message (14) and a trust store (16) with the pledge's issuer. *)
Definition desk (cms : bytes) : list block :=
  [Buf (s2b "A1" ++ [0]); Struct [P 3; I 2]; Buf [2; 0]; Struct [P 5; I 1]; Buf [2]; Struct [P 7; I 2]; Buf [1; 0]; Struct [P 9; I 1]; Buf [1];
   Struct [P 11; I 5]; Buf (s2b "hello"); Struct [P 13; I 1]; Buf [1]; Struct [P 15; I (Z.of_N (blen cms))]; Buf cms;
   Struct [P 0; I 0; I 0; P 17; P 17; P 16]; Struct [P 18; I 2; I 0; P 16; P 16; P 17]; Buf [1; 0]].
Definition enough : N -> bool := fun _ => false.

Ltac at_desk := split; [discriminate|]; eexists _, _; split; [reflexivity|]; split; [reflexivity|]; split; [reflexivity|]; split; [discriminate|]; split; [reflexivity|]; vm_compute; discriminate.
Ltac on_desk := split; [discriminate|]; split; [vm_compute; repeat constructor; discriminate|]; eexists; split; [reflexivity|]; split; [vm_compute; tauto|reflexivity].

Definition asked : bytes := 1 :: s2b "{""ietf-voucher:voucher"":{""assertion"":""proximity"",""serial-number"":""A1"",""nonce"":""aGVsbG8="",""proximity-registrar-cert"":""AgA=""}}".
Definition asked_twice : bytes := 1 :: s2b "{""ietf-voucher:voucher"":{""assertion"":""proximity"",""serial-number"":""A1"",""nonce"":""aGVsbG8="",""nonce"":""aGVsbG8="",""proximity-registrar-cert"":""AgA=""}}".

Lemma pledge_case : forall oom,
  match h_sign_pledge_voucher_request toy (memory (desk asked) oom) (Some tm_case) 1 10 2 6 8 0 with
  | UB e => e = NullDeref /\ starved (memory (desk asked) oom)
  | Ok (p, h') => new_array (memory (desk asked) oom) (match sign_pledge_voucher_request toy (Some tm_case) (Some (s2b "A1")) (Some (ba_of (s2b "hello"))) (Some (ba_of [2; 0])) (Some (ba_of [1; 0])) (Some (ba_of [1])) None with Ok r => r | _ => None end) p h'
  end.
Proof.
  intros oom. eapply (pledge_memory toy (memory (desk asked) oom) (Some tm_case) 1 10 2 6 8 0 (Some (s2b "A1")) (Some (ba_of (s2b "hello"))) (Some (ba_of [2; 0])) (Some (ba_of [1; 0])) (Some (ba_of [1])) None).
  - apply memory_wf.
  - on_desk.
  - at_desk.
  - at_desk.
  - at_desk.
  - at_desk.
  - reflexivity.
  - split; [apply bytes_okb_ok; reflexivity|vm_compute; discriminate].
  - split; [apply bytes_okb_ok; reflexivity|vm_compute; discriminate].
  - intros t s' n' rt' Et Es On Hr v text Hv Ht. apply pv1_unique in Hv. subst v. assert (t = tm_case /\ s' = s2b "A1") as [-> ->] by (split; congruence).
    destruct n' as [n'|]; [|destruct On]. assert (n' = s2b "hello") as -> by (eapply ba_has_fun; [exact On|apply ba_of_has]). assert (rt' = [2; 0]) as -> by (eapply ba_has_fun; [exact Hr|apply ba_of_has]).
    apply (f_equal (fun o => match o with Ok (Some y) => blen y | _ => 0 end)) in Ht. rewrite <- Ht. vm_compute. reflexivity.
  - vm_compute. reflexivity.
Qed.

Lemma asked_unrepeated : forall a, owning a -> ~ repeated (attr_name a) (List.tl asked).
Proof.
  intros a Ho R. apply repeated_b in R. pose proof (owning_all a Ho) as Ha. cbn [all_attrs In] in Ha.
  repeat (destruct Ha as [<-|Ha]; [vm_compute in R; discriminate|]). destruct Ha.
Qed.
Lemma toy_content : forall id json certs store c st j, verified toy (ba_of (id :: json)) certs store c st j -> j = json.
Proof.
  intros id json certs store c st j (d & s & H1 & H2 & _ & _ & H5). assert (d = id :: json) as -> by (eapply holds_bytes_fun; [exact H1|right; apply ba_of_has]).
  cbn [d2i_cms toy] in H2. assert (c = (id, json)) as -> by congruence. cbn [cms_verify toy fst snd] in H5. destruct (bytes_okb json && (blen json <? 2147483648) && _); [congruence|discriminate H5].
Qed.
Definition pledges_store : option certlist := Some [([1; 0], 0%Z)].

Lemma registrar_case : forall oom r, r = match sign_voucher_request toy (Some (ba_of asked)) (Some tm_case) (Some (s2b "A1")) (Some (ba_of [1])) (Some (ba_of [2; 0])) (Some (ba_of [2; 0])) (Some (ba_of [2])) None pledges_store None with Ok r => r | _ => None end ->
  r <> None /\
  match h_sign_voucher_request toy (memory (desk asked) oom) (14, 0%nat) (Some tm_case) 1 12 2 2 4 0 16 0 with
  | UB e => e = NullDeref /\ starved (memory (desk asked) oom)
  | Ok (p, h') => some_array (memory (desk asked) oom) r p h' /\ new_array (memory (desk asked) oom) r p h'
  end.
Proof.
  intros oom r Er. split; [subst r; vm_compute; discriminate|].
  assert (Cl : clean_content toy (Some (ba_of asked)) None pledges_store).
  { intros x c st json Ex Hv. left. intros a Ha. assert (x = ba_of asked) as -> by congruence. apply toy_content in Hv. subst json. apply asked_unrepeated. exact Ha. }
  pose proof (registrar_memory toy (memory (desk asked) oom) (14, 0%nat) (Some tm_case) 1 12 2 2 4 0 16 0 (Some (ba_of asked)) (Some (s2b "A1")) (Some (ba_of [1])) (Some (ba_of [2; 0])) (Some (ba_of [2; 0])) (Some (ba_of [2])) None pledges_store None r toy_sane (memory_wf _ _)) as X.
  assert (Y : match h_sign_voucher_request toy (memory (desk asked) oom) (14, 0%nat) (Some tm_case) 1 12 2 2 4 0 16 0 with
    | UB e => e = NullDeref /\ starved (memory (desk asked) oom)
    | Ok (p, h') => some_array (memory (desk asked) oom) r p h' /\ (clean_content toy (Some (ba_of asked)) None pledges_store -> new_array (memory (desk asked) oom) r p h')
    end).
  { apply X; clear X.
    - at_desk.
    - on_desk.
    - at_desk.
    - at_desk.
    - at_desk.
    - at_desk.
    - reflexivity.
    - vm_compute. reflexivity.
    - reflexivity.
    - split; [apply bytes_okb_ok; reflexivity|vm_compute; discriminate].
    - split; [apply bytes_okb_ok; reflexivity|vm_compute; discriminate].
    - intros t s' n' i' x' xb pvr Et Es Hi Hx Exb Sy Hn v text Hv Ht. apply pv2_unique in Hv. subst v. assert (t = tm_case /\ s' = s2b "A1" /\ xb = ba_of asked) as (-> & -> & ->) by (repeat split; congruence).
      assert (i' = [1]) as -> by (eapply ba_has_fun; [exact Hi|apply ba_of_has]). assert (x' = asked) as -> by (eapply ba_has_fun; [exact Hx|apply ba_of_has]).
      apply verify_says in Sy. vm_compute in Sy. injection Sy as <-. destruct n' as [n'|]; [|discriminate Hn]. assert (n' = s2b "hello") as -> by (apply (f_equal (fun o => match o with Some b => ba_data b | _ => None end)) in Hn; vm_compute in Hn; vm_compute; congruence).
      apply (f_equal (fun o => match o with Ok (Some y) => blen y | _ => 0 end)) in Ht. rewrite <- Ht. vm_compute. reflexivity.
    - subst r. vm_compute. reflexivity. }
  destruct (h_sign_voucher_request toy (memory (desk asked) oom) (14, 0%nat) (Some tm_case) 1 12 2 2 4 0 16 0) as [[p h']|e]; [|exact Y]. destruct Y as [Y1 Y2]. split; [exact Y1|exact (Y2 Cl)].
Qed.

(** Without memory signing crashes; *)
Lemma pledge_crash_refuted : exists o h0 created serial nonce rtls cert key s n rt c k t, ossl_sane o /\ heap_wf h0 /\
  string_at h0 serial s /\ array_at h0 (nonce, 0%nat) n /\ array_at h0 (rtls, 0%nat) rt /\ array_at h0 (cert, 0%nat) c /\ array_at h0 (key, 0%nat) k /\
  sign_pledge_voucher_request o created s n rt c k None = Ok (Some t) /\
  h_sign_pledge_voucher_request o h0 created serial nonce rtls cert key 0 = UB NullDeref.
Proof.
  exists toy, (memory (desk asked) (fun a => a =? 28)), (Some tm_case), 1, 10, 2, 6, 8, (Some (s2b "A1")), (Some (ba_of (s2b "hello"))), (Some (ba_of [2; 0])), (Some (ba_of [1; 0])), (Some (ba_of [1])).
  exists (match sign_pledge_voucher_request toy (Some tm_case) (Some (s2b "A1")) (Some (ba_of (s2b "hello"))) (Some (ba_of [2; 0])) (Some (ba_of [1; 0])) (Some (ba_of [1])) None with Ok (Some t) => t | _ => [] end).
  split; [exact toy_sane|]. split; [apply memory_wf|]. split; [on_desk|]. split; [at_desk|]. split; [at_desk|]. split; [at_desk|]. split; [at_desk|]. split; vm_compute; reflexivity.
Qed.
(** and the registrar loses memory on a signed request that repeats a member,
    with enough memory and on success. *)
Lemma registrar_leak_refuted : exists o h0 cms created serial issuer rtls cert key vstore x s i rt c k ls t p h' b a, ossl_sane o /\ heap_wf h0 /\ plenty h0 /\
  array_at h0 (cms, 0%nat) x /\ string_at h0 serial s /\ array_at h0 (issuer, 0%nat) i /\ array_at h0 (rtls, 0%nat) rt /\ array_at h0 (cert, 0%nat) c /\ array_at h0 (key, 0%nat) k /\ h_certlist h0 vstore = Ok ls /\
  sign_voucher_request o x created s i rt c k None ls None = Ok (Some t) /\
  h_sign_voucher_request o h0 (cms, 0%nat) created serial issuer rtls cert key 0 vstore 0 = Ok (p, h') /\
  hp_cell h' p = Live (Struct [P b; I (Z.of_N (blen t))]) /\ hp_cell h' b = Live (Buf t) /\
  hp_next h0 <= a /\ a <> p /\ a <> b /\ is_live h' a.
Proof.
  set (h0 := memory (desk asked_twice) enough).
  set (t := match sign_voucher_request toy (Some (ba_of asked_twice)) (Some tm_case) (Some (s2b "A1")) (Some (ba_of [1])) (Some (ba_of [2; 0])) (Some (ba_of [2; 0])) (Some (ba_of [2])) None pledges_store None with Ok (Some r) => r | _ => [] end).
  set (h' := match h_sign_voucher_request toy h0 (14, 0%nat) (Some tm_case) 1 12 2 2 4 0 16 0 with Ok (_, h) => h | _ => h0 end).
  exists toy, h0, 14, (Some tm_case), 1, 12, 2, 2, 4, 16, (Some (ba_of asked_twice)), (Some (s2b "A1")), (Some (ba_of [1])), (Some (ba_of [2; 0])), (Some (ba_of [2; 0])), (Some (ba_of [2])), pledges_store, t, 94, h', 95, 24.
  split; [exact toy_sane|]. split; [apply memory_wf|]. split; [intros a; reflexivity|]. split; [at_desk|]. split; [on_desk|]. split; [at_desk|]. split; [at_desk|]. split; [at_desk|]. split; [at_desk|]. split; [vm_compute; reflexivity|].
  split; [vm_compute; reflexivity|]. split; [vm_compute; reflexivity|]. split; [vm_compute; reflexivity|]. split; [vm_compute; reflexivity|]. split; [discriminate|]. split; [discriminate|]. split; [discriminate|]. eexists. vm_compute. reflexivity.
Qed.

(** What the two results are, in terms of the messages. *)
Lemma new_content : forall h0 r p h', heap_wf h0 -> new_array h0 r p h' -> p <> 0 ->
  exists d b, r = Some d /\ hp_cell h' p = Live (Struct [P b; I (Z.of_N (blen d))]) /\ content h' b = d.
Proof.
  intros h0 r p h' (W1 & W2 & _) (K & [(X & _)|(d & b & -> & _ & Cp & Cb & L)]) P0; [contradiction|]. exists d, b. split; [reflexivity|]. split; [exact Cp|].
  unfold content. destruct Cb as [[-> ->]|(_ & _ & Cb)]; [|rewrite Cb; reflexivity]. rewrite K by lia. rewrite W2. reflexivity.
Qed.
Lemma string_no0 : forall h p s t, string_at h p s -> s = Some t -> ~ In 0 t.
Proof. intros h p s t A ->. destruct A as (_ & C & _). apply cstr_no0. exact C. Qed.

Lemma pledge_result : forall o h0 created serial nonce rtls cert key extra s n rt c k l,
  heap_wf h0 -> plenty h0 -> string_at h0 serial s -> array_at h0 (nonce, 0%nat) n -> array_at h0 (rtls, 0%nat) rt -> array_at h0 (cert, 0%nat) c -> array_at h0 (key, 0%nat) k ->
  h_certlist h0 extra = Ok l -> ba_bytes n -> ba_bytes rt ->
  (forall t s' n' rt', created = Some t -> s = Some s' -> opt_has n n' -> ba_has rt rt' -> text_fits (pledge_content t s' n' rt')) ->
  forall r, sign_pledge_voucher_request o created s n rt c k l = Ok r ->
  exists p h', h_sign_pledge_voucher_request o h0 created serial nonce rtls cert key extra = Ok (p, h') /\ new_array h0 r p h' /\ (p = 0 <-> r = None) /\
    (p <> 0 -> exists t s' n' rt' d b, created = Some t /\ s = Some s' /\ opt_has n n' /\ ba_has rt rt' /\
       hp_cell h' p = Live (Struct [P b; I (Z.of_N (blen d))]) /\ content h' b = d /\ signed_voucher o c k l (pledge_content t s' n' rt') d).
Proof.
  intros o h0 created serial nonce rtls cert key extra s n rt c k l W PL As An Art Ac Ak Al Bn Brt Tf r Er.
  pose proof (pledge_memory o h0 created serial nonce rtls cert key extra s n rt c k l r W As An Art Ac Ak Al Bn Brt Tf Er) as X.
  destruct (h_sign_pledge_voucher_request o h0 created serial nonce rtls cert key extra) as [[p h']|e]; [|destruct X as [_ S]; destruct (plenty_not_starved _ PL S)].
  exists p, h'. split; [reflexivity|]. split; [exact X|]. split; [exact (new_plenty _ _ _ _ PL X)|]. intros P0. destruct (new_content _ _ _ _ W X P0) as (d & b & -> & Cp & Cb).
  apply pledge_request_says in Er; [|intros u Hu; exact (string_no0 _ _ _ _ As Hu)].
  destruct Er as (t & s' & n' & rt' & H1 & H2 & H3 & H4 & H5). exists t, s', n', rt', d, b. repeat (split; [assumption|]). exact H5.
Qed.

Lemma registrar_result : forall o h0 cms created serial issuer rtls cert key vcerts vstore extra x s i rt c k lv ls l,
  ossl_sane o -> heap_wf h0 -> plenty h0 -> array_at h0 cms x -> string_at h0 serial s -> array_at h0 (issuer, 0%nat) i -> array_at h0 (rtls, 0%nat) rt -> array_at h0 (cert, 0%nat) c -> array_at h0 (key, 0%nat) k ->
  h_certlist h0 vcerts = Ok lv -> h_certlist h0 vstore = Ok ls -> h_certlist h0 extra = Ok l -> ba_bytes x -> ba_bytes i ->
  (forall t s' n' i' x' xb pvr, created = Some t -> s = Some s' -> ba_has i i' -> ba_has x x' -> x = Some xb -> says o xb lv ls false pvr None -> nonce_is pvr n' -> text_fits (registrar_content t s' n' i' x')) ->
  clean_content o x lv ls ->
  forall r, sign_voucher_request o x created s i rt c k lv ls l = Ok r ->
  exists p h', h_sign_voucher_request o h0 cms created serial issuer rtls cert key vcerts vstore extra = Ok (p, h') /\ new_array h0 r p h' /\ (p = 0 <-> r = None) /\
    (p <> 0 -> exists xb pvr t s' i' x' n' d b, x = Some xb /\ says o xb lv ls false pvr None /\ created = Some t /\ s = Some s' /\ ba_has i i' /\ ba_has x x' /\ nonce_is pvr n' /\
       get_attr_str (Some pvr) ASerial = Some (Some s') /\ get_attr_enum (Some pvr) AAssertion = Some 3%Z /\
       hp_cell h' p = Live (Struct [P b; I (Z.of_N (blen d))]) /\ content h' b = d /\ signed_voucher o c k l (registrar_content t s' n' i' x') d).
Proof.
  intros o h0 cms created serial issuer rtls cert key vcerts vstore extra x s i rt c k lv ls l So W PL Ax As Ai Art Ac Ak Alv Als Al Bx Bi Tf Cl r Er.
  pose proof (registrar_memory o h0 cms created serial issuer rtls cert key vcerts vstore extra x s i rt c k lv ls l r So W Ax As Ai Art Ac Ak Alv Als Al Bx Bi Tf Er) as X.
  destruct (h_sign_voucher_request o h0 cms created serial issuer rtls cert key vcerts vstore extra) as [[p h']|e]; [|destruct X as [_ S]; destruct (plenty_not_starved _ PL S)].
  destruct X as [_ X]. specialize (X Cl). exists p, h'. split; [reflexivity|]. split; [exact X|]. split; [exact (new_plenty _ _ _ _ PL X)|]. intros P0. destruct (new_content _ _ _ _ W X P0) as (d & b & -> & Cp & Cb).
  apply registrar_request_says in Er; [|exact So|intros u Hu; exact (string_no0 _ _ _ _ As Hu)].
  destruct Er as (pc & pvr & t & s' & i' & rc & x' & prox & n' & H1 & H2 & H3 & H4 & H5 & H6 & H7 & H8 & H9 & H10 & H11 & H12 & H13).
  exists pc, pvr, t, s', i', x', n', d, b. repeat (split; [assumption|]). exact H13.
Qed.
