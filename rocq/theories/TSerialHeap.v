(** C113: the memory of the serialisation of a voucher. *)
From Verif Require Import Base PBase MBase64 MSerialize MJsmn MVoucher MHeap MVoucherHeap SHeap SArray SVoucherHeap PVoucherHeapFind
  MSerialHeap SSerialHeap PSerialHeap3 PSerialHeap4.
Open Scope N_scope.

(** C113, partial: serialising any voucher in memory, whichever allocations
    fail, leaves all memory that existed as it was; it gives NULL with nothing
    left behind, or a new block with exactly the text and its NUL and nothing
    else. NULL only when there is no text for the voucher or an allocation was
    refused. Missing: that it never crashes, which is false when an allocation
    is refused (C113_refuted). *)
Theorem C113_memory_partial : forall h v pl w r, heap_wf h -> in_memory h v pl w -> fits w -> serialize_voucher (Some w) = Ok r ->
  match h_serialize_voucher h v pl with
  | UB k => k = NullDeref /\ starved h
  | Ok (p, h') => new_string h r p h'
  end.
Proof. exact serialize_memory. Qed.
Print Assumptions C113_memory_partial.

(** C113 (enough memory): nothing is lost, and the text is the one of the value
    model (the one C22 to C28 are about). *)
Theorem C113_exact : forall h v pl w r, heap_wf h -> plenty h -> in_memory h v pl w -> fits w -> serialize_voucher (Some w) = Ok r ->
  exists p h', h_serialize_voucher h v pl = Ok (p, h') /\ kept (hp_next h) h h' /\
    match r with
    | None => p = 0 /\ no_leak (hp_next h) h'
    | Some t => p <> 0 /\ hp_cell h' p = Live (Buf (t ++ [0])) /\ forall a, hp_next h <= a -> (is_live h' a <-> a = p)
    end.
Proof. exact serialize_memory_plenty. Qed.
Print Assumptions C113_exact.

(** The same for a voucher after any history of attribute operations. *)
Theorem C113_history_partial : forall h0 ops rcs v h pl, heap_wf h0 -> Forall (op_ok h0) ops -> voucher_life h0 ops rcs v h ->
  exists f, (plenty h0 -> f = final h0 ops) /\ forall r, fits (value_of pl f) -> serialize_voucher (Some (value_of pl f)) = Ok r ->
    match h_serialize_voucher h v pl with
    | UB k => k = NullDeref /\ starved h
    | Ok (p, h') => new_string h r p h'
    end.
Proof. exact life_serialize. Qed.
Print Assumptions C113_history_partial.

(** The same for a voucher that was read from a text. *)
Theorem C113_reread : forall js h0 w r, bytes_ok js -> blen js < 2147483648 -> heap_wf h0 -> plenty h0 -> deserialize_voucher true (Some js) = Ok (Some w) ->
  fits w -> serialize_voucher (Some w) = Ok r ->
  exists v h p h', h_deserialize_voucher h0 js = Ok (v, h) /\ h_serialize_voucher h v w = Ok (p, h') /\ kept (hp_next h) h h' /\
    match r with
    | None => p = 0 /\ no_leak (hp_next h) h'
    | Some t => p <> 0 /\ hp_cell h' p = Live (Buf (t ++ [0])) /\ forall a, hp_next h <= a -> (is_live h' a <-> a = p)
    end.
Proof. exact reread_memory. Qed.
Print Assumptions C113_reread.

(** C113 is false without memory: instead of failing, serialisation uses a list
    link that was never set. *)
Theorem C113_refuted : exists h0 ops rcs v h pl t, heap_wf h0 /\ Forall (op_ok h0) ops /\ voucher_life h0 ops rcs v h /\
  in_memory h v pl (value_of pl (final h0 ops)) /\ fits (value_of pl (final h0 ops)) /\ serialize_voucher (Some (value_of pl (final h0 ops))) = Ok (Some t) /\
  h_serialize_voucher h v pl = UB NullDeref.
Proof. exact serialize_crash_refuted. Qed.
Print Assumptions C113_refuted.

(** A voucher read from a text and written again. *)
Example C113_case : let h0 := my_heap (fun _ => false) in
  exists w t v h p h', deserialize_voucher true (Some once) = Ok (Some w) /\ fits w /\ serialize_voucher (Some w) = Ok (Some t) /\
    t = s2b "{""ietf-voucher:voucher"":{""assertion"":""proximity"",""serial-number"":""A1"",""domain-cert-revocation-checks"":false,""nonce"":""aGVsbG8=""}}" /\
    h_deserialize_voucher h0 once = Ok (v, h) /\ in_memory h v w w /\ h_serialize_voucher h v w = Ok (p, h') /\ hp_cell h' p = Live (Buf (t ++ [0])) /\
    forall a, hp_next h <= a -> (is_live h' a <-> a = p).
Proof.
  intros h0. set (w := match deserialize_voucher true (Some once) with Ok (Some w) => w | _ => init_voucher end). set (t := match serialize_voucher (Some w) with Ok (Some t) => t | _ => [] end).
  assert (Ew : deserialize_voucher true (Some once) = Ok (Some w)) by (vm_compute; reflexivity). assert (Et : serialize_voucher (Some w) = Ok (Some t)) by (vm_compute; reflexivity).
  assert (Fw : fits w).
  { split; [|split].
    - intros s Hs. vm_compute in Hs. injection Hs as <-. vm_compute. reflexivity.
    - intros a b d Hb Hd. apply bytes_okb_ok. destruct a; vm_compute in Hb; try discriminate Hb; injection Hb as <-; vm_compute in Hd; try discriminate Hd; injection Hd as <-; vm_compute; reflexivity.
    - intros s Hs. assert (s = t) as -> by (apply (f_equal (fun o => match o with Ok (Some y) => y | _ => [] end)) in Hs; rewrite Et in Hs; symmetry; exact Hs). clear Hs. vm_compute. reflexivity. }
  assert (B : bytes_ok once) by (apply bytes_okb_ok; vm_compute; reflexivity).
  destruct (C113_reread once h0 w (Some t) B eq_refl (my_wf _) (fun _ => eq_refl) Ew Fw Et) as (v & h & p & h' & E1 & E2 & K & P0 & C & L).
  exists w, t, v, h, p, h'. split; [exact Ew|]. split; [exact Fw|]. split; [exact Et|]. split; [vm_compute; reflexivity|]. split; [exact E1|]. split; [|auto].
  assert (Ev : exists hh, h_deserialize_voucher h0 once = Ok (5, hh)) by (vm_compute; eexists; reflexivity). destruct Ev as [hh Ev].
  destruct (PVoucherHeapJson.deserialize_life once h0 B eq_refl (my_wf _) eq_refl) as (v' & h1 & E3 & _ & Cs). assert (v' = v /\ h1 = h) as [-> ->] by (split; congruence). assert (v = 5) as -> by congruence.
  destruct Cs as [[X _]|[_ (f & lk & Hs & Q)]]; [discriminate X|]. destruct (Q (fun _ => eq_refl)) as [(w' & Ew' & A) _]. assert (w' = w) as -> by congruence.
  eapply vstate_in_memory; [exact Hs|exact A|repeat split].
Qed.
Example C113_case_oom : forall n, n = 10 \/ n = 13 -> exists h, voucher_life (my_heap (fun x => x =? n)) [SetString ASerial 1] [0%Z] 5 h /\
  exists h', h_serialize_voucher h 5 init_voucher = Ok (0, h').
Proof.
  intros n [-> | ->]; (eexists; split; [eexists; split; [reflexivity|]; split; [discriminate|vm_compute; reflexivity]|]; eexists; vm_compute; reflexivity).
Qed.
