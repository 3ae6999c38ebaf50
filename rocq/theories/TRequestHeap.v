(** C114: the memory of the signing of the two voucher requests. *)
From Verif Require Import Base PBase MBase64 MSerialize MVoucher SJson MCrypto MRequest SRequest PRequest PRequest6 MHeap MArray MVoucherHeap MConfig MHandlers SHeap SArray SVoucherHeap
  MSerialHeap SSerialHeap MRequestHeap SRequestHeap PRequestHeap5.
Open Scope N_scope.

(** C114 (pledge, enough memory): sign_pledge_voucher_request with arguments
    anywhere in memory changes none of it, gives NULL with nothing left behind
    or a new array and its buffer and nothing else, and the buffer is the
    signature of exactly the pledge's request. *)
Theorem C114_pledge : forall o h0 created serial nonce rtls cert key extra s n rt c k l,
  heap_wf h0 -> plenty h0 -> string_at h0 serial s -> array_at h0 (nonce, 0%nat) n -> array_at h0 (rtls, 0%nat) rt -> array_at h0 (cert, 0%nat) c -> array_at h0 (key, 0%nat) k ->
  h_certlist h0 extra = Ok l -> ba_bytes n -> ba_bytes rt ->
  (forall t s' n' rt', created = Some t -> s = Some s' -> opt_has n n' -> ba_has rt rt' -> text_fits (pledge_content t s' n' rt')) ->
  forall r, sign_pledge_voucher_request o created s n rt c k l = Ok r ->
  exists p h', h_sign_pledge_voucher_request o h0 created serial nonce rtls cert key extra = Ok (p, h') /\ new_array h0 r p h' /\ (p = 0 <-> r = None) /\
    (p <> 0 -> exists t s' n' rt' d b, created = Some t /\ s = Some s' /\ opt_has n n' /\ ba_has rt rt' /\
       hp_cell h' p = Live (Struct [P b; I (Z.of_N (blen d))]) /\ content h' b = d /\ signed_voucher o c k l (pledge_content t s' n' rt') d).
Proof. exact pledge_result. Qed.
Print Assumptions C114_pledge.

(** C114 (pledge), partial: whichever allocations fail, the same, where NULL
    may also mean that an allocation was refused. Missing: that it never
    crashes, which is false when an allocation is refused (C114_crash_refuted). *)
Theorem C114_pledge_partial : forall o h0 created serial nonce rtls cert key extra s n rt c k l r,
  heap_wf h0 -> string_at h0 serial s -> array_at h0 (nonce, 0%nat) n -> array_at h0 (rtls, 0%nat) rt -> array_at h0 (cert, 0%nat) c -> array_at h0 (key, 0%nat) k ->
  h_certlist h0 extra = Ok l -> ba_bytes n -> ba_bytes rt ->
  (forall t s' n' rt', created = Some t -> s = Some s' -> opt_has n n' -> ba_has rt rt' -> text_fits (pledge_content t s' n' rt')) ->
  sign_pledge_voucher_request o created s n rt c k l = Ok r ->
  match h_sign_pledge_voucher_request o h0 created serial nonce rtls cert key extra with
  | UB e => e = NullDeref /\ starved h0
  | Ok (p, h') => new_array h0 r p h'
  end.
Proof. exact pledge_memory. Qed.
Print Assumptions C114_pledge_partial.

(** C114 (registrar, enough memory): sign_voucher_request on a request whose
    signed content repeats no member. *)
Theorem C114_registrar : forall o h0 cms created serial issuer rtls cert key vcerts vstore extra x s i rt c k lv ls l,
  ossl_sane o -> heap_wf h0 -> plenty h0 -> array_at h0 cms x -> string_at h0 serial s -> array_at h0 (issuer, 0%nat) i -> array_at h0 (rtls, 0%nat) rt -> array_at h0 (cert, 0%nat) c -> array_at h0 (key, 0%nat) k ->
  h_certlist h0 vcerts = Ok lv -> h_certlist h0 vstore = Ok ls -> h_certlist h0 extra = Ok l -> ba_bytes x -> ba_bytes i ->
  (forall t s' n' i' x' xb pvr, created = Some t -> s = Some s' -> ba_has i i' -> ba_has x x' -> x = Some xb -> says o xb lv ls false pvr None -> nonce_is pvr n' -> text_fits (registrar_content t s' n' i' x')) ->
  clean_content o x lv ls ->
  forall r, sign_voucher_request o x created s i rt c k lv ls l = Ok r ->
  exists p h', h_sign_voucher_request o h0 cms created serial issuer rtls cert key vcerts vstore extra = Ok (p, h') /\ new_array h0 r p h' /\ (p = 0 <-> r = None) /\
    (p <> 0 -> exists xb pvr t s' i' x' n' d b, x = Some xb /\ says o xb lv ls false pvr None /\ created = Some t /\ s = Some s' /\ ba_has i i' /\ ba_has x x' /\ nonce_is pvr n' /\
       get_attr_str (Some pvr) ASerial = Some (Some s') /\ get_attr_enum (Some pvr) AAssertion = Some 3%Z /\
       hp_cell h' p = Live (Struct [P b; I (Z.of_N (blen d))]) /\ content h' b = d /\ signed_voucher o c k l (registrar_content t s' n' i' x') d).
Proof. exact registrar_result. Qed.
Print Assumptions C114_registrar.

(** C114 (registrar), partial: any signed content and whichever allocations
    fail. Missing: that nothing is lost on a content that repeats a member
    (false, C114_leak_refuted) and that it never crashes. *)
Theorem C114_registrar_partial : forall o h0 cms created serial issuer rtls cert key vcerts vstore extra x s i rt c k lv ls l r,
  ossl_sane o -> heap_wf h0 -> array_at h0 cms x -> string_at h0 serial s -> array_at h0 (issuer, 0%nat) i -> array_at h0 (rtls, 0%nat) rt -> array_at h0 (cert, 0%nat) c -> array_at h0 (key, 0%nat) k ->
  h_certlist h0 vcerts = Ok lv -> h_certlist h0 vstore = Ok ls -> h_certlist h0 extra = Ok l -> ba_bytes x -> ba_bytes i ->
  (forall t s' n' i' x' xb pvr, created = Some t -> s = Some s' -> ba_has i i' -> ba_has x x' -> x = Some xb -> says o xb lv ls false pvr None -> nonce_is pvr n' -> text_fits (registrar_content t s' n' i' x')) ->
  sign_voucher_request o x created s i rt c k lv ls l = Ok r ->
  match h_sign_voucher_request o h0 cms created serial issuer rtls cert key vcerts vstore extra with
  | UB e => e = NullDeref /\ starved h0
  | Ok (p, h') => some_array h0 r p h' /\ (clean_content o x lv ls -> new_array h0 r p h')
  end.
Proof. exact registrar_memory. Qed.
Print Assumptions C114_registrar_partial.

(** C114 is false without memory: signing dereferences NULL. *)
Theorem C114_crash_refuted : exists o h0 created serial nonce rtls cert key s n rt c k t, ossl_sane o /\ heap_wf h0 /\
  string_at h0 serial s /\ array_at h0 (nonce, 0%nat) n /\ array_at h0 (rtls, 0%nat) rt /\ array_at h0 (cert, 0%nat) c /\ array_at h0 (key, 0%nat) k /\
  sign_pledge_voucher_request o created s n rt c k None = Ok (Some t) /\
  h_sign_pledge_voucher_request o h0 created serial nonce rtls cert key 0 = UB NullDeref.
Proof. exact pledge_crash_refuted. Qed.
Print Assumptions C114_crash_refuted.

(** C114 is false for a signed request that repeats a member: with enough
    memory the registrar signs and loses a block. *)
Theorem C114_leak_refuted : exists o h0 cms created serial issuer rtls cert key vstore x s i rt c k ls t p h' b a, ossl_sane o /\ heap_wf h0 /\ plenty h0 /\
  array_at h0 (cms, 0%nat) x /\ string_at h0 serial s /\ array_at h0 (issuer, 0%nat) i /\ array_at h0 (rtls, 0%nat) rt /\ array_at h0 (cert, 0%nat) c /\ array_at h0 (key, 0%nat) k /\ h_certlist h0 vstore = Ok ls /\
  sign_voucher_request o x created s i rt c k None ls None = Ok (Some t) /\
  h_sign_voucher_request o h0 (cms, 0%nat) created serial issuer rtls cert key 0 vstore 0 = Ok (p, h') /\
  hp_cell h' p = Live (Struct [P b; I (Z.of_N (blen t))]) /\ hp_cell h' b = Live (Buf t) /\
  hp_next h0 <= a /\ a <> p /\ a <> b /\ is_live h' a.
Proof. exact registrar_leak_refuted. Qed.
Print Assumptions C114_leak_refuted.

(** The pledge signs, and the registrar signs on that request; whichever
    allocations fail. *)
Example C114_pledge_case : forall oom,
  match h_sign_pledge_voucher_request toy (memory (desk asked) oom) (Some tm_case) 1 10 2 6 8 0 with
  | UB e => e = NullDeref /\ starved (memory (desk asked) oom)
  | Ok (p, h') => new_array (memory (desk asked) oom) (match sign_pledge_voucher_request toy (Some tm_case) (Some (s2b "A1")) (Some (ba_of (s2b "hello"))) (Some (ba_of [2; 0])) (Some (ba_of [1; 0])) (Some (ba_of [1])) None with Ok r => r | _ => None end) p h'
  end.
Proof. exact pledge_case. Qed.
Example C114_registrar_case : forall oom r, r = match sign_voucher_request toy (Some (ba_of asked)) (Some tm_case) (Some (s2b "A1")) (Some (ba_of [1])) (Some (ba_of [2; 0])) (Some (ba_of [2; 0])) (Some (ba_of [2])) None pledges_store None with Ok r => r | _ => None end ->
  r <> None /\
  match h_sign_voucher_request toy (memory (desk asked) oom) (14, 0%nat) (Some tm_case) 1 12 2 2 4 0 16 0 with
  | UB e => e = NullDeref /\ starved (memory (desk asked) oom)
  | Ok (p, h') => some_array (memory (desk asked) oom) r p h' /\ new_array (memory (desk asked) oom) r p h'
  end.
Proof. exact registrar_case. Qed.
(** With enough memory both give a result, with two blocks left each. *)
Example C114_results :
  (match h_sign_pledge_voucher_request toy (memory (desk asked) enough) (Some tm_case) 1 10 2 6 8 0 with Ok (p, _) => negb (p =? 0) | _ => false end)
  && (match h_sign_voucher_request toy (memory (desk asked) enough) (14, 0%nat) (Some tm_case) 1 12 2 2 4 0 16 0 with Ok (p, _) => negb (p =? 0) | _ => false end) = true.
Proof. vm_compute. reflexivity. Qed.
