(** C115: the memory of the MASA's signing of a voucher. *)
From Verif Require Import Base PBase MBase64 MSerialize MVoucher SJson MCrypto MRequest SRequest PRequest PRequest6 MHeap MArray MVoucherHeap MConfig MHandlers SHeap SArray SVoucherHeap
  MSerialHeap SSerialHeap MRequestHeap SRequestHeap PRequestHeap5 PRequestHeap9.
Open Scope N_scope.

(** C115 (enough memory): sign_masa_pledge_voucher on a request that repeats no
    member, and is a voucher if its signature verifies, changes no memory that
    existed and leaves nothing but the returned array and its buffer, which is
    the signature of exactly the voucher for the request. *)
Theorem C115_masa : forall o h0 cms expires cb cert key rcerts rstore pcerts pstore extra x c k lr lrs lp lps l,
  ossl_sane o -> heap_wf h0 -> plenty h0 -> array_at h0 cms x -> array_at h0 (cert, 0%nat) c -> array_at h0 (key, 0%nat) k ->
  h_certlist h0 rcerts = Ok lr -> h_certlist h0 rstore = Ok lrs -> h_certlist h0 pcerts = Ok lp -> h_certlist h0 pstore = Ok lps -> h_certlist h0 extra = Ok l -> ba_bytes x ->
  (forall f s regs, cb = Some f -> ba_bytes (Some (snd (f s regs)))) ->
  (forall t f s n d xb vr regs rc pinned, expires = Some t -> cb = Some f -> x = Some xb -> says o xb lr lrs true vr regs -> get_attr_str (Some vr) ASerial = Some (Some s) ->
     f s regs = (rc, pinned) -> (0 <= rc)%Z -> ba_has (Some pinned) d -> nonce_is vr n -> text_fits (masa_content t s n d)) ->
  clean_request o x lr lrs lp lps -> voucher_or_nothing o x lr lrs true ->
  forall r, sign_masa_pledge_voucher o x expires cb c k lr lrs lp lps l = Ok r ->
  exists p h', h_sign_masa_pledge_voucher o h0 cms expires cb cert key rcerts rstore pcerts pstore extra = Ok (p, h') /\ new_array h0 r p h' /\ (p = 0 <-> r = None) /\
    (p <> 0 -> exists xb vr regs pvr prior t f s rc pinned d n y b, x = Some xb /\ says o xb lr lrs true vr regs /\ get_attr_array (Some vr) APrior = Some prior /\ says o prior lp lps false pvr None /\
       get_attr_str (Some vr) ASerial = Some (Some s) /\ get_attr_str (Some pvr) ASerial = Some (Some s) /\ expires = Some t /\ cb = Some f /\ f s regs = (rc, pinned) /\ (0 <= rc)%Z /\ ba_has (Some pinned) d /\ nonce_is vr n /\
       hp_cell h' p = Live (Struct [P b; I (Z.of_N (blen y))]) /\ content h' b = y /\ signed_voucher o c k l (masa_content t s n d) y).
Proof. exact masa_result. Qed.
Print Assumptions C115_masa.

(** C115, partial: any request and whichever allocations fail. Missing: that
    nothing is lost when the signed content is no voucher (false,
    C115_leak_refuted), repeats a member, or memory is refused (false,
    C115_data_leak_refuted), and that it never crashes (false,
    C115_crash_refuted). *)
Theorem C115_masa_partial : forall o h0 cms expires cb cert key rcerts rstore pcerts pstore extra x c k lr lrs lp lps l r,
  ossl_sane o -> heap_wf h0 -> array_at h0 cms x -> array_at h0 (cert, 0%nat) c -> array_at h0 (key, 0%nat) k ->
  h_certlist h0 rcerts = Ok lr -> h_certlist h0 rstore = Ok lrs -> h_certlist h0 pcerts = Ok lp -> h_certlist h0 pstore = Ok lps -> h_certlist h0 extra = Ok l -> ba_bytes x ->
  (forall f s regs, cb = Some f -> ba_bytes (Some (snd (f s regs)))) ->
  (forall t f s n d xb vr regs rc pinned, expires = Some t -> cb = Some f -> x = Some xb -> says o xb lr lrs true vr regs -> get_attr_str (Some vr) ASerial = Some (Some s) ->
     f s regs = (rc, pinned) -> (0 <= rc)%Z -> ba_has (Some pinned) d -> nonce_is vr n -> text_fits (masa_content t s n d)) ->
  sign_masa_pledge_voucher o x expires cb c k lr lrs lp lps l = Ok r ->
  match h_sign_masa_pledge_voucher o h0 cms expires cb cert key rcerts rstore pcerts pstore extra with
  | UB e => e = NullDeref /\ starved h0
  | Ok (p, h') => some_array h0 r p h' /\
      (clean_request o x lr lrs lp lps ->
       (forall xb cm st json, x = Some xb -> ~ verified o xb lr lrs cm st json) \/ (plenty h0 /\ exists xb vr regs, x = Some xb /\ says o xb lr lrs true vr regs) -> new_array h0 r p h')
  end.
Proof. exact masa_memory. Qed.
Print Assumptions C115_masa_partial.

(** C115 is false for a message signed by a trusted registrar that is no
    voucher: with enough memory, the list of signers is lost. *)
Theorem C115_leak_refuted : exists o h0 cms expires cb cert key rstore pstore x c k lrs lps h' a, ossl_sane o /\ heap_wf h0 /\ plenty h0 /\
  array_at h0 (cms, 0%nat) (Some x) /\ array_at h0 (cert, 0%nat) c /\ array_at h0 (key, 0%nat) k /\ h_certlist h0 rstore = Ok lrs /\ h_certlist h0 pstore = Ok lps /\
  (exists cm st json, verified o x None lrs cm st json) /\ clean_request o (Some x) None lrs None lps /\
  h_sign_masa_pledge_voucher o h0 (cms, 0%nat) expires cb cert key 0 rstore 0 pstore 0 = Ok (0, h') /\
  hp_next h0 <= a /\ is_live h' a.
Proof. exact masa_leak_refuted. Qed.
Print Assumptions C115_leak_refuted.

(** C115 is false when the list of signers gets no memory: the content is lost. *)
Theorem C115_data_leak_refuted : exists o h0 cms expires cb cert key rstore pstore x c k lrs lps t h' a, ossl_sane o /\ heap_wf h0 /\
  array_at h0 (cms, 0%nat) x /\ array_at h0 (cert, 0%nat) c /\ array_at h0 (key, 0%nat) k /\ h_certlist h0 rstore = Ok lrs /\ h_certlist h0 pstore = Ok lps /\
  clean_request o x None lrs None lps /\ sign_masa_pledge_voucher o x expires cb c k None lrs None lps None = Ok (Some t) /\
  h_sign_masa_pledge_voucher o h0 (cms, 0%nat) expires cb cert key 0 rstore 0 pstore 0 = Ok (0, h') /\
  hp_next h0 <= a /\ is_live h' a.
Proof. exact masa_data_leak_refuted. Qed.
Print Assumptions C115_data_leak_refuted.

(** C115 is false without memory: a NULL pointer is dereferenced. *)
Theorem C115_crash_refuted : exists o h0 cms expires cb cert key rstore pstore x c k lrs lps t, ossl_sane o /\ heap_wf h0 /\
  array_at h0 (cms, 0%nat) x /\ array_at h0 (cert, 0%nat) c /\ array_at h0 (key, 0%nat) k /\ h_certlist h0 rstore = Ok lrs /\ h_certlist h0 pstore = Ok lps /\
  sign_masa_pledge_voucher o x expires cb c k None lrs None lps None = Ok (Some t) /\
  h_sign_masa_pledge_voucher o h0 (cms, 0%nat) expires cb cert key 0 rstore 0 pstore 0 = UB NullDeref.
Proof. exact masa_crash_refuted. Qed.
Print Assumptions C115_crash_refuted.

(** The MASA answers the registrar's request; whichever allocations fail. *)
Example C115_case : forall oom r, r = match sign_masa_pledge_voucher toy (Some (ba_of reg_asked)) (Some tm_case) (Some pins) (Some (ba_of [3; 0])) (Some (ba_of [3])) None registrars_store None pledges_store None with Ok r => r | _ => None end ->
  r <> None /\
  match h_sign_masa_pledge_voucher toy (memory (masa_desk reg_asked) oom) (5, 0%nat) (Some tm_case) (Some pins) 1 3 0 7 0 10 0 with
  | UB e => e = NullDeref /\ starved (memory (masa_desk reg_asked) oom)
  | Ok (p, h') => some_array (memory (masa_desk reg_asked) oom) r p h' /\ (plenty (memory (masa_desk reg_asked) oom) -> new_array (memory (masa_desk reg_asked) oom) r p h')
  end.
Proof. exact masa_case. Qed.
Example C115_result : match h_sign_masa_pledge_voucher toy (memory (masa_desk reg_asked) enough) (5, 0%nat) (Some tm_case) (Some pins) 1 3 0 7 0 10 0 with Ok (p, _) => negb (p =? 0) | _ => false end = true.
Proof. vm_compute. reflexivity. Qed.
