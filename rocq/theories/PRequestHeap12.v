(** The claims about the memory of the pledge's check; witnesses. *)
From Coq Require Import Permutation ZifyBool ZifyNat ZifyN.
From Verif Require Import Base PBase MBase64 MSerialize MOs MJsmn MVoucher SVoucher PVoucher SJson PVoucherText PVoucherRound MCrypto MRequest SRequest PRequest PRequest2 PRequest3 PRequest4 PRequest5 PRequest6
  MHeap MArray MVoucherHeap MConfig MHandlers MSerialHeap MRequestHeap SHeap SArray SVoucherHeap SSerialHeap PHeap PArray PBlocks POwn PHold
  PVoucherHeap PVoucherHeapJson PVoucherHeapOom PVoucherHeapFind PAcquire PSerialHeap PSerialHeap3 PSerialHeap4 SRequestHeap PRequestHeap PRequestHeap2 PRequestHeap3 PRequestHeap4 PRequestHeap5 PRequestHeap9 PRequestHeap10 PRequestHeap11.
Open Scope N_scope.

Lemma accepts_iff : forall o x s n rt ld lv ls want p l, ossl_sane o ->
  (verify_masa_pledge_voucher o x s n rt ld lv ls want true = Ok (Some (p, l)) <-> exists d, p = ba_of d /\ acceptable o x s n rt ld lv ls want d l).
Proof.
  intros o x s n rt ld lv ls want p l So. rewrite (pledge_accepts o x s n rt ld lv ls want p l So). split.
  - intros (c & mv & s' & d & H1 & H2 & H3 & H4 & H5 & H6 & H7 & H8). exists d. split; [exact H8|]. exists c, mv, s'. auto 10.
  - intros (d & H8 & c & mv & s' & H1 & H2 & H3 & H4 & H5 & H6 & H7). exists c, mv, s', d. auto 10.
Qed.
Lemma rejects_iff : forall o x s n rt ld lv ls want, ossl_sane o -> verify_masa_pledge_voucher o x s n rt ld lv ls want true = Ok None -> forall d l, ~ acceptable o x s n rt ld lv ls want d l.
Proof.
  intros o x s n rt ld lv ls want So E d l A. assert (Y : verify_masa_pledge_voucher o x s n rt ld lv ls want true = Ok (Some (ba_of d, l))) by (apply accepts_iff; [exact So|exists d; auto]).
  rewrite E in Y. discriminate Y.
Qed.
Lemma ba_of_inj : forall a b, ba_of a = ba_of b -> a = b.
Proof. intros a b E. unfold ba_of in E. congruence. Qed.
Lemma out_false : forall o x s n rt ld lv ls want r, verify_masa_pledge_voucher o x s n rt ld lv ls want false = Ok r -> r = None.
Proof.
  intros o x s n rt ld lv ls want r E. unfold verify_masa_pledge_voucher in E. cbn [negb] in E.
  repeat match type of E with
  | Ok None = Ok _ => symmetry; injection E as E; exact E
  | UB _ = Ok _ => discriminate E
  | (match ?m with _ => _ end) = Ok _ => destruct m; cbn [obind] in E
  | obind ?m _ = Ok _ => destruct m; cbn [obind] in E
  end.
Qed.

Lemma verify_memory : forall o h0 cms serial nonce rtls dstore vcerts vstore want pin x s n rt ld lv ls,
  ossl_sane o -> heap_wf h0 -> array_at h0 cms x -> string_at h0 serial s -> array_at h0 (nonce, 0%nat) n -> array_at h0 (rtls, 0%nat) (Some rt) ->
  h_certlist h0 dstore = Ok ld -> h_certlist h0 vcerts = Ok lv -> h_certlist h0 vstore = Ok ls -> ba_bytes x -> ba_bytes n -> ba_bytes (Some rt) ->
  (pin = 0 \/ exists p0 n0, hp_cell h0 pin = Live (Struct [P p0; I n0])) ->
  match h_verify_masa_pledge_voucher o h0 cms serial nonce rtls dstore vcerts vstore want pin with
  | UB e => e = NullDeref /\ starved h0
  | Ok (rc, l, h') => some_pinned h0 pin (acceptable o x s n (Some rt) ld lv ls want) rc l h' /\
      (clean_content o x lv ls -> rc = 0%Z \/ (want = false /\ ~ refused h0 h') -> new_pinned h0 pin (acceptable o x s n (Some rt) ld lv ls want) rc l h')
  end.
Proof.
  intros o h0 cms serial nonce rtls dstore vcerts vstore want pin x s n rt ld lv ls So W Ax As An Art Ald Alv Als Bx Bn Brt Pin.
  pose proof (pledge_by o h0 cms serial nonce rtls dstore vcerts vstore want pin x s n rt ld lv ls So W Ax As An Art Ald Alv Als Bx Pin) as X.
  destruct (pledge_verify_safe o x s n rt ld lv ls want (negb (pin =? 0)) So Bx Bn Brt) as [r Er]. rewrite Er in X. cbn [settles] in X.
  destruct (h_verify_masa_pledge_voucher o h0 cms serial nonce rtls dstore vcerts vstore want pin) as [[[rc l] h']|e]; [|exact X].
  destruct X as (W' & N' & O' & K & X). destruct X as [(-> & d & lst & b & F & lk & -> & Li & P0 & Cp & Cb & H & HL & HF)|(-> & Q & Qp & L & H & HL)].
  - rewrite (proj2 (N.eqb_neq _ _) P0) in Er. cbn [negb] in Er. apply accepts_iff in Er; [|exact So]. destruct Er as (d' & Ed & A). apply ba_of_inj in Ed. subst d'.
    destruct (hold_in _ _ _ b H (or_introl eq_refl)) as (_ & _ & _ & Bb). pose proof (listed_read _ _ _ _ W' Li) as Rl. split.
    + split; [exact K|]. left. split; [reflexivity|]. exists d, lst, b. auto 10.
    + intros C _. split; [exact K|]. left. split; [reflexivity|]. rewrite (HL (clean_of _ _ _ _ C)), app_nil_r in H.
      assert (H2 : hold (hp_next h0) h' (F ++ [b])) by (eapply hold_perm; [|exact H]; change (b :: F) with ([b] ++ F); apply Permutation_app_comm).
      destruct (free_listed _ _ _ _ _ _ H2 Li) as (h2 & E2 & _ & _ & _ & _ & H3). exists d, lst, b, h2. repeat (split; [assumption|]). intros a Ha. destruct H3 as (_ & _ & _ & _ & V). rewrite (V a Ha). cbn [In]. split; [intros [->|[]]; reflexivity|auto].
  - assert (Q' : (forall d lst, ~ acceptable o x s n (Some rt) ld lv ls want d lst) \/ pin = 0 \/ refused h0 h').
    { destruct Q as [->|Q]; [|right; right; exact Q]. destruct (N.eq_dec pin 0) as [P0|P0]; [right; left; exact P0|left]. rewrite (proj2 (N.eqb_neq _ _) P0) in Er. cbn [negb] in Er. apply rejects_iff; assumption. }
    split; [split; [exact K|right; auto]|]. intros C [Z|[Y R]]; [discriminate Z|]. split; [exact K|]. right. split; [reflexivity|]. split; [exact Q'|]. split; [exact Qp|].
    destruct (HL (clean_of _ _ _ _ C) Y) as [->|Z]; [|contradiction]. apply hold_none. exact H.
Qed.

Lemma verify_result : forall o h0 cms serial nonce rtls dstore vcerts vstore pin x s n rt ld lv ls,
  ossl_sane o -> heap_wf h0 -> plenty h0 -> array_at h0 cms x -> string_at h0 serial s -> array_at h0 (nonce, 0%nat) n -> array_at h0 (rtls, 0%nat) (Some rt) ->
  h_certlist h0 dstore = Ok ld -> h_certlist h0 vcerts = Ok lv -> h_certlist h0 vstore = Ok ls -> ba_bytes x -> ba_bytes n -> ba_bytes (Some rt) ->
  (exists p0 n0, hp_cell h0 pin = Live (Struct [P p0; I n0])) -> clean_content o x lv ls ->
  exists rc l h', h_verify_masa_pledge_voucher o h0 cms serial nonce rtls dstore vcerts vstore false pin = Ok (rc, l, h') /\
    (forall a, a < hp_next h0 -> a <> pin -> hp_cell h' a = hp_cell h0 a) /\
    ((rc = 0%Z /\ exists d b, acceptable o x s n (Some rt) ld lv ls false d None /\ hp_cell h' pin = Live (Struct [P b; I (Z.of_N (blen d))]) /\ hp_cell h' b = Live (Buf d) /\
        forall a, hp_next h0 <= a -> (is_live h' a <-> a = b)) \/
     (rc = (-1)%Z /\ (forall d lst, ~ acceptable o x s n (Some rt) ld lv ls false d lst) /\ hp_cell h' pin = hp_cell h0 pin /\ no_leak (hp_next h0) h')).
Proof.
  intros o h0 cms serial nonce rtls dstore vcerts vstore pin x s n rt ld lv ls So W PL Ax As An Art Ald Alv Als Bx Bn Brt Pin C.
  pose proof (pledge_by o h0 cms serial nonce rtls dstore vcerts vstore false pin x s n rt ld lv ls So W Ax As An Art Ald Alv Als Bx (or_intror Pin)) as X.
  destruct (pledge_verify_safe o x s n rt ld lv ls false (negb (pin =? 0)) So Bx Bn Brt) as [r Er]. rewrite Er in X. cbn [settles] in X.
  destruct (h_verify_masa_pledge_voucher o h0 cms serial nonce rtls dstore vcerts vstore false pin) as [[[rc l] h']|e]; [|destruct X as [_ S]; destruct (plenty_not_starved _ PL S)].
  assert (Nr : ~ refused h0 h') by (intros R; apply (plenty_not_starved _ PL); eapply refused_starved; exact R).
  assert (P0 : pin <> 0) by (destruct Pin as (p0 & n0 & Cp); eapply live_nz; [exact W|eexists; exact Cp]). rewrite (proj2 (N.eqb_neq _ _) P0) in Er. cbn [negb] in Er.
  exists rc, l, h'. split; [reflexivity|]. destruct X as (W' & N' & O' & K & X). split; [exact K|].
  destruct X as [(-> & d & lst & b & F & lk & -> & Li & _ & Cp & Cb & H & HL & HF)|(-> & Q & Qp & L & H & HL)].
  - left. split; [reflexivity|]. apply accepts_iff in Er; [|exact So]. destruct Er as (d' & Ed & A). apply ba_of_inj in Ed. subst d'. exists d, b. rewrite (HF eq_refl), (HL (clean_of _ _ _ _ C)) in H. cbn [app] in H.
    assert (lst = None) as -> by (destruct A as (xx & mv & s' & _ & _ & Sy & _); apply verify_says in Sy; rewrite (HF eq_refl) in Li; destruct Li as [(_ & Y & _)|(items & _ & Y)]; [exact Y|destruct (alist_head _ _ _ _ Y) as [Z _]; destruct Z]).
    split; [exact A|]. split; [exact Cp|]. split; [exact Cb|]. intros a Ha. destruct H as (_ & _ & _ & _ & V). rewrite (V a Ha). cbn [In]. split; [intros [->|[]]; reflexivity|auto].
  - right. split; [reflexivity|]. split; [|split].
    + destruct Q as [->|Q]; [|contradiction]. apply rejects_iff; assumption.
    + destruct Qp as [Y|[Y _]]; [exact Y|contradiction].
    + destruct (HL (clean_of _ _ _ _ C) eq_refl) as [->|Y]; [apply hold_none; exact H|contradiction].
Qed.

(** *** Witnesses *)
(** A voucher (1), the serial number (3), the nonce (4), the registrar's
    certificate (6), the trust anchors for it (8), the trusted MASAs (11) and
    the caller's struct (14). *)
Definition check_desk (cms : bytes) : list block :=
  [Struct [P 2; I (Z.of_N (blen cms))]; Buf cms; Buf (s2b "A" ++ [0]); Struct [P 5; I 1]; Buf [9]; Struct [P 7; I 2]; Buf [2; 7];
   Struct [P 0; I 0; I 0; P 9; P 9; P 8]; Struct [P 10; I 2; I 0; P 8; P 8; P 9]; Buf [7; 0];
   Struct [P 0; I 0; I 0; P 12; P 12; P 11]; Struct [P 13; I 2; I 0; P 11; P 11; P 12]; Buf [3; 0]; Struct [P 0; I 0]].
Lemma issued_clean : clean_content toy (Some (ba_of issued)) None (id_store 3).
Proof.
  intros x c st json Ex Hv. left. intros a Ha R. assert (x = ba_of issued) as -> by congruence. apply toy_verified in Hv. destruct Hv as (d & Hd & _ & ->). assert (d = issued) as -> by (eapply holds_bytes_fun; [exact Hd|right; apply ba_of_has]).
  apply repeated_b in R. pose proof (owning_all a Ha) as Hi. cbn [all_attrs In] in Hi. repeat (destruct Hi as [<-|Hi]; [vm_compute in R; discriminate|]). destruct Hi.
Qed.
Definition checked (cms : bytes) (oom : N -> bool) := h_verify_masa_pledge_voucher toy (memory (check_desk cms) oom) (1, 0%nat) 3 4 6 8 0 11 false 14.
Lemma verify_case : forall oom,
  match checked issued oom with
  | UB e => e = NullDeref /\ starved (memory (check_desk issued) oom)
  | Ok (rc, l, h') => some_pinned (memory (check_desk issued) oom) 14 (acceptable toy (Some (ba_of issued)) (Some (s2b "A")) (Some (ba_of [9])) (Some (ba_of [2; 7])) (id_store 7) None (id_store 3) false) rc l h' /\
      (clean_content toy (Some (ba_of issued)) None (id_store 3) -> rc = 0%Z \/ (false = false /\ ~ refused (memory (check_desk issued) oom) h') ->
       new_pinned (memory (check_desk issued) oom) 14 (acceptable toy (Some (ba_of issued)) (Some (s2b "A")) (Some (ba_of [9])) (Some (ba_of [2; 7])) (id_store 7) None (id_store 3) false) rc l h')
  end.
Proof.
  intros oom. apply verify_memory.
  - exact toy_sane.
  - apply memory_wf.
  - at_desk.
  - on_desk.
  - at_desk.
  - at_desk.
  - vm_compute. reflexivity.
  - reflexivity.
  - vm_compute. reflexivity.
  - split; [apply bytes_okb_ok; vm_compute; reflexivity|vm_compute; discriminate].
  - split; [apply bytes_okb_ok; vm_compute; reflexivity|vm_compute; discriminate].
  - split; [apply bytes_okb_ok; vm_compute; reflexivity|vm_compute; discriminate].
  - right. exists 0, 0%Z. reflexivity.
Qed.

(** When the list of intermediate certificates gets no memory, the copy of the
    pinned certificate is lost. *)
Lemma verify_leak_refuted : exists o h0 cms serial nonce rtls dstore vstore pin x s n rt ld ls d h' a, ossl_sane o /\ heap_wf h0 /\
  array_at h0 (cms, 0%nat) x /\ string_at h0 serial s /\ array_at h0 (nonce, 0%nat) n /\ array_at h0 (rtls, 0%nat) (Some rt) /\ h_certlist h0 dstore = Ok ld /\ h_certlist h0 vstore = Ok ls /\
  (exists p0 n0, hp_cell h0 pin = Live (Struct [P p0; I n0])) /\ clean_content o x None ls /\ acceptable o x s n (Some rt) ld None ls false d None /\
  h_verify_masa_pledge_voucher o h0 (cms, 0%nat) serial nonce rtls dstore 0 vstore false pin = Ok ((-1)%Z, 0, h') /\
  hp_next h0 <= a /\ is_live h' a.
Proof.
  set (h0 := memory (check_desk issued) (fun a => a =? 26)). set (h' := match checked issued (fun a => a =? 26) with Ok (_, h) => h | _ => h0 end).
  exists toy, h0, 1, 3, 4, 6, 8, 11, 14, (Some (ba_of issued)), (Some (s2b "A")), (Some (ba_of [9])), (ba_of [2; 7]), (id_store 7), (id_store 3), [7; 7], h', 25.
  split; [exact toy_sane|]. split; [apply memory_wf|]. split; [at_desk|]. split; [on_desk|]. split; [at_desk|]. split; [at_desk|]. split; [vm_compute; reflexivity|]. split; [vm_compute; reflexivity|].
  split; [exists 0, 0%Z; reflexivity|]. split; [exact issued_clean|]. split.
  { assert (E : exists d, ba_of [7; 7] = ba_of d /\ acceptable toy (Some (ba_of issued)) (Some (s2b "A")) (Some (ba_of [9])) (Some (ba_of [2; 7])) (id_store 7) None (id_store 3) false d None) by (apply accepts_iff; [exact toy_sane|vm_compute; reflexivity]).
    destruct E as (d & Ed & A). apply ba_of_inj in Ed. subst d. exact A. }
  split; [vm_compute; reflexivity|]. split; [vm_compute; discriminate|]. eexists. vm_compute. reflexivity.
Qed.
(** When the element of that list gets no memory, a NULL pointer is dereferenced. *)
Lemma verify_crash_refuted : exists o h0 cms serial nonce rtls dstore vstore pin x s n rt ld ls d, ossl_sane o /\ heap_wf h0 /\
  array_at h0 (cms, 0%nat) x /\ string_at h0 serial s /\ array_at h0 (nonce, 0%nat) n /\ array_at h0 (rtls, 0%nat) (Some rt) /\ h_certlist h0 dstore = Ok ld /\ h_certlist h0 vstore = Ok ls /\
  (exists p0 n0, hp_cell h0 pin = Live (Struct [P p0; I n0])) /\ acceptable o x s n (Some rt) ld None ls false d None /\
  h_verify_masa_pledge_voucher o h0 (cms, 0%nat) serial nonce rtls dstore 0 vstore false pin = UB NullDeref.
Proof.
  set (h0 := memory (check_desk issued) (fun a => a =? 28)).
  exists toy, h0, 1, 3, 4, 6, 8, 11, 14, (Some (ba_of issued)), (Some (s2b "A")), (Some (ba_of [9])), (ba_of [2; 7]), (id_store 7), (id_store 3), [7; 7].
  split; [exact toy_sane|]. split; [apply memory_wf|]. split; [at_desk|]. split; [on_desk|]. split; [at_desk|]. split; [at_desk|]. split; [vm_compute; reflexivity|]. split; [vm_compute; reflexivity|].
  split; [exists 0, 0%Z; reflexivity|]. split; [|vm_compute; reflexivity].
  assert (E : exists d, ba_of [7; 7] = ba_of d /\ acceptable toy (Some (ba_of issued)) (Some (s2b "A")) (Some (ba_of [9])) (Some (ba_of [2; 7])) (id_store 7) None (id_store 3) false d None) by (apply accepts_iff; [exact toy_sane|vm_compute; reflexivity]).
  destruct E as (d & Ed & A). apply ba_of_inj in Ed. subst d. exact A.
Qed.
(** And with enough memory a voucher that repeats a member loses memory. *)
Definition issued_twice : bytes := 3 :: s2b "{""ietf-voucher:voucher"":{""assertion"":""proximity"",""serial-number"":""A"",""serial-number"":""A"",""nonce"":""CQ=="",""pinned-domain-cert"":""Bwc=""}}".
Lemma verify_twice_refuted : exists o h0 cms serial nonce rtls dstore vstore pin x s n rt ld ls d b h' a, ossl_sane o /\ heap_wf h0 /\ plenty h0 /\
  array_at h0 (cms, 0%nat) x /\ string_at h0 serial s /\ array_at h0 (nonce, 0%nat) n /\ array_at h0 (rtls, 0%nat) (Some rt) /\ h_certlist h0 dstore = Ok ld /\ h_certlist h0 vstore = Ok ls /\
  (exists p0 n0, hp_cell h0 pin = Live (Struct [P p0; I n0])) /\ acceptable o x s n (Some rt) ld None ls false d None /\
  h_verify_masa_pledge_voucher o h0 (cms, 0%nat) serial nonce rtls dstore 0 vstore false pin = Ok (0%Z, 0, h') /\ hp_cell h' pin = Live (Struct [P b; I (Z.of_N (blen d))]) /\
  hp_next h0 <= a /\ a <> b /\ is_live h' a.
Proof.
  set (h0 := memory (check_desk issued_twice) enough). set (h' := match checked issued_twice enough with Ok (_, h) => h | _ => h0 end).
  set (b := match hp_cell h' 14 with Live (Struct (P p :: _)) => p | _ => 0 end).
  set (a := match filter (fun a => match hp_cell h' (N.of_nat a) with Live _ => negb (N.of_nat a =? b) | _ => false end) (seq 15 40) with a :: _ => N.of_nat a | _ => 0 end).
  exists toy, h0, 1, 3, 4, 6, 8, 11, 14, (Some (ba_of issued_twice)), (Some (s2b "A")), (Some (ba_of [9])), (ba_of [2; 7]), (id_store 7), (id_store 3), [7; 7], b, h', a.
  split; [exact toy_sane|]. split; [apply memory_wf|]. split; [intros y; reflexivity|]. split; [at_desk|]. split; [on_desk|]. split; [at_desk|]. split; [at_desk|]. split; [vm_compute; reflexivity|]. split; [vm_compute; reflexivity|].
  split; [exists 0, 0%Z; reflexivity|]. split.
  { assert (E : exists d, ba_of [7; 7] = ba_of d /\ acceptable toy (Some (ba_of issued_twice)) (Some (s2b "A")) (Some (ba_of [9])) (Some (ba_of [2; 7])) (id_store 7) None (id_store 3) false d None) by (apply accepts_iff; [exact toy_sane|vm_compute; reflexivity]).
    destruct E as (d & Ed & A). apply ba_of_inj in Ed. subst d. exact A. }
  split; [vm_compute; reflexivity|]. split; [vm_compute; reflexivity|]. split; [vm_compute; discriminate|]. split; [vm_compute; discriminate|]. eexists. vm_compute. reflexivity.
Qed.
