(** C116: the memory of the pledge's check of a voucher. *)
From Verif Require Import Base PBase MBase64 MSerialize MVoucher SJson MCrypto MRequest SRequest PRequest PRequest6 MHeap MArray MVoucherHeap MConfig MHandlers SHeap SArray SVoucherHeap
  MSerialHeap SSerialHeap MRequestHeap SRequestHeap PRequestHeap5 PRequestHeap12.
Open Scope N_scope.

(** C116 (enough memory): the check of a voucher that repeats no member, as the
    pledge calls it, succeeds exactly for an acceptable voucher. On success the
    caller's struct holds a new buffer with the pinned certificate, which is all
    that is left; on failure nothing has changed and nothing is left. *)
Theorem C116_pledge : forall o h0 cms serial nonce rtls dstore vcerts vstore pin x s n rt ld lv ls,
  ossl_sane o -> heap_wf h0 -> plenty h0 -> array_at h0 cms x -> string_at h0 serial s -> array_at h0 (nonce, 0%nat) n -> array_at h0 (rtls, 0%nat) (Some rt) ->
  h_certlist h0 dstore = Ok ld -> h_certlist h0 vcerts = Ok lv -> h_certlist h0 vstore = Ok ls -> ba_bytes x -> ba_bytes n -> ba_bytes (Some rt) ->
  (exists p0 n0, hp_cell h0 pin = Live (Struct [P p0; I n0])) -> clean_content o x lv ls ->
  exists rc l h', h_verify_masa_pledge_voucher o h0 cms serial nonce rtls dstore vcerts vstore false pin = Ok (rc, l, h') /\
    (forall a, a < hp_next h0 -> a <> pin -> hp_cell h' a = hp_cell h0 a) /\
    ((rc = 0%Z /\ exists d b, acceptable o x s n (Some rt) ld lv ls false d None /\ hp_cell h' pin = Live (Struct [P b; I (Z.of_N (blen d))]) /\ hp_cell h' b = Live (Buf d) /\
        forall a, hp_next h0 <= a -> (is_live h' a <-> a = b)) \/
     (rc = (-1)%Z /\ (forall d lst, ~ acceptable o x s n (Some rt) ld lv ls false d lst) /\ hp_cell h' pin = hp_cell h0 pin /\ no_leak (hp_next h0) h')).
Proof. exact verify_result. Qed.
Print Assumptions C116_pledge.

(** C116, partial: any voucher, whichever allocations fail, with or without the
    list of the signers. Missing: that nothing is lost when an allocation is
    refused (false, C116_leak_refuted) or a member repeated (false,
    C116_twice_refuted), that a failing check gives no list (with a list wanted),
    and that it never crashes (false, C116_crash_refuted). *)
Theorem C116_pledge_partial : forall o h0 cms serial nonce rtls dstore vcerts vstore want pin x s n rt ld lv ls,
  ossl_sane o -> heap_wf h0 -> array_at h0 cms x -> string_at h0 serial s -> array_at h0 (nonce, 0%nat) n -> array_at h0 (rtls, 0%nat) (Some rt) ->
  h_certlist h0 dstore = Ok ld -> h_certlist h0 vcerts = Ok lv -> h_certlist h0 vstore = Ok ls -> ba_bytes x -> ba_bytes n -> ba_bytes (Some rt) ->
  (pin = 0 \/ exists p0 n0, hp_cell h0 pin = Live (Struct [P p0; I n0])) ->
  match h_verify_masa_pledge_voucher o h0 cms serial nonce rtls dstore vcerts vstore want pin with
  | UB e => e = NullDeref /\ starved h0
  | Ok (rc, l, h') => some_pinned h0 pin (acceptable o x s n (Some rt) ld lv ls want) rc l h' /\
      (clean_content o x lv ls -> rc = 0%Z \/ (want = false /\ ~ refused h0 h') -> new_pinned h0 pin (acceptable o x s n (Some rt) ld lv ls want) rc l h')
  end.
Proof. exact verify_memory. Qed.
Print Assumptions C116_pledge_partial.

(** C116 is false when the list for the pinned certificate gets no memory: the
    copy of the certificate is lost. *)
Theorem C116_leak_refuted : exists o h0 cms serial nonce rtls dstore vstore pin x s n rt ld ls d h' a, ossl_sane o /\ heap_wf h0 /\
  array_at h0 (cms, 0%nat) x /\ string_at h0 serial s /\ array_at h0 (nonce, 0%nat) n /\ array_at h0 (rtls, 0%nat) (Some rt) /\ h_certlist h0 dstore = Ok ld /\ h_certlist h0 vstore = Ok ls /\
  (exists p0 n0, hp_cell h0 pin = Live (Struct [P p0; I n0])) /\ clean_content o x None ls /\ acceptable o x s n (Some rt) ld None ls false d None /\
  h_verify_masa_pledge_voucher o h0 (cms, 0%nat) serial nonce rtls dstore 0 vstore false pin = Ok ((-1)%Z, 0, h') /\
  hp_next h0 <= a /\ is_live h' a.
Proof. exact verify_leak_refuted. Qed.
Print Assumptions C116_leak_refuted.

(** C116 is false for an acceptable voucher that repeats a member, with enough memory. *)
Theorem C116_twice_refuted : exists o h0 cms serial nonce rtls dstore vstore pin x s n rt ld ls d b h' a, ossl_sane o /\ heap_wf h0 /\ plenty h0 /\
  array_at h0 (cms, 0%nat) x /\ string_at h0 serial s /\ array_at h0 (nonce, 0%nat) n /\ array_at h0 (rtls, 0%nat) (Some rt) /\ h_certlist h0 dstore = Ok ld /\ h_certlist h0 vstore = Ok ls /\
  (exists p0 n0, hp_cell h0 pin = Live (Struct [P p0; I n0])) /\ acceptable o x s n (Some rt) ld None ls false d None /\
  h_verify_masa_pledge_voucher o h0 (cms, 0%nat) serial nonce rtls dstore 0 vstore false pin = Ok (0%Z, 0, h') /\ hp_cell h' pin = Live (Struct [P b; I (Z.of_N (blen d))]) /\
  hp_next h0 <= a /\ a <> b /\ is_live h' a.
Proof. exact verify_twice_refuted. Qed.
Print Assumptions C116_twice_refuted.

(** C116 is false without memory: a NULL pointer is dereferenced. *)
Theorem C116_crash_refuted : exists o h0 cms serial nonce rtls dstore vstore pin x s n rt ld ls d, ossl_sane o /\ heap_wf h0 /\
  array_at h0 (cms, 0%nat) x /\ string_at h0 serial s /\ array_at h0 (nonce, 0%nat) n /\ array_at h0 (rtls, 0%nat) (Some rt) /\ h_certlist h0 dstore = Ok ld /\ h_certlist h0 vstore = Ok ls /\
  (exists p0 n0, hp_cell h0 pin = Live (Struct [P p0; I n0])) /\ acceptable o x s n (Some rt) ld None ls false d None /\
  h_verify_masa_pledge_voucher o h0 (cms, 0%nat) serial nonce rtls dstore 0 vstore false pin = UB NullDeref.
Proof. exact verify_crash_refuted. Qed.
Print Assumptions C116_crash_refuted.

(** An issued voucher, whichever allocations fail; with enough memory it is
    accepted and the certificate pinned. *)
Example C116_case : forall oom,
  match checked issued oom with
  | UB e => e = NullDeref /\ starved (memory (check_desk issued) oom)
  | Ok (rc, l, h') => some_pinned (memory (check_desk issued) oom) 14 (acceptable toy (Some (ba_of issued)) (Some (s2b "A")) (Some (ba_of [9])) (Some (ba_of [2; 7])) (id_store 7) None (id_store 3) false) rc l h' /\
      (clean_content toy (Some (ba_of issued)) None (id_store 3) -> rc = 0%Z \/ (false = false /\ ~ refused (memory (check_desk issued) oom) h') ->
       new_pinned (memory (check_desk issued) oom) 14 (acceptable toy (Some (ba_of issued)) (Some (s2b "A")) (Some (ba_of [9])) (Some (ba_of [2; 7])) (id_store 7) None (id_store 3) false) rc l h')
  end.
Proof. exact verify_case. Qed.
Example C116_result : match checked issued enough with Ok (rc, l, h') => (rc =? 0)%Z && match hp_cell h' 14 with Live (Struct [P b; I z]) => (z =? 2)%Z && match hp_cell h' b with Live (Buf d) => beqb d [7; 7] | _ => false end | _ => false end | _ => false end = true.
Proof. vm_compute. reflexivity. Qed.
