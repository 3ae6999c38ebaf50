(** Vouchers that the operations and the parser leave in memory can be
    serialised; a witness of a crash. *)
From Coq Require Import Permutation.
From Verif Require Import Base PBase MOs MBase64 MSerialize MJsmn MVoucher MHeap MArray SHeap SArray SVoucherHeap PHeap PArray PBlocks POwn
  MVoucherHeap PVoucherHeap PVoucherHeapJson PVoucherHeapFind MSerialHeap SSerialHeap PHold PSerialHeap PSerialHeap3.
Open Scope N_scope.

Definition same_plain (w pl : voucher) : Prop :=
  v_created w = v_created pl /\ v_expires w = v_expires pl /\ v_renewal w = v_renewal pl /\ v_assertion w = v_assertion pl /\ v_revocation w = v_revocation pl.

Lemma vstate_in_memory : forall base h v f lk pl w, vstate base h v f lk -> agrees f w -> same_plain w pl -> in_memory h v pl w.
Proof.
  intros base h v f lk pl w (fs & Hc & V1 & V2) [A1 A2] S. destruct (core_base _ _ _ _ _ Hc) as [Vb [V0 [Nb Cv]]]. split; [exact V0|].
  pose proof Hc as (_ & _ & _ & _ & Sh & _).
  assert (Ptr : forall i, In i pf -> get_ptr h v i = Ok (ptr_at fs i)).
  { intros i Hi. destruct Sh as [Sh _]. destruct (Sh i Hi) as [p Hp]. unfold ptr_at. rewrite Hp. eapply get_ptr_at; eassumption. }
  split; [|split; [|exact S]].
  - exists (ptr_at fs 0). split; [apply Ptr; left; reflexivity|]. rewrite <- A1. destruct (f ASerial) as [s|]; cbn [ser_at] in V1; [|exact V1].
    destruct V1 as (P0 & d & C & Z & <-). split; [exact P0|]. apply heap_string_exact; assumption.
  - intros a i b Hf Hb. specialize (V2 a i Hf). rewrite (A2 a i Hf) in Hb. destruct (arr_field_in a i Hf) as (Hi & _). exists (ptr_at fs i). split; [apply Ptr; exact Hi|].
    destruct (f a) as [d|]; cbn [arr_at] in V2; injection Hb as <-; cbn [ba_len ba_data ba_of ba_null].
    + destruct V2 as (P0 & C & N1). split; [eapply get_int_at; eassumption|]. unfold load_buf. rewrite (proj2 (N.eqb_neq _ _) P0), C. reflexivity.
    + destruct V2 as (P0 & N1). split; [eapply get_int_at; eassumption|]. rewrite P0. reflexivity.
Qed.

(** Every state of a voucher is the state of some value. *)
Lemma value_agrees : forall pl f, agrees f (value_of pl f) /\ same_plain (value_of pl f) pl.
Proof. intros pl f. split; [split; [reflexivity|]; intros a i Hi; destruct a; try discriminate; reflexivity|repeat split]. Qed.

Lemma life_in_memory : forall h0 ops rcs v h pl, heap_wf h0 -> Forall (op_ok h0) ops -> voucher_life h0 ops rcs v h ->
  heap_wf h /\ exists f, in_memory h v pl (value_of pl f) /\ (plenty h0 -> f = final h0 ops /\ plenty h).
Proof.
  intros h0 ops rcs v h pl W Hop L. destruct (life_state _ _ _ _ _ W Hop L) as (f & lk & G & Hs & _ & P1). split; [destruct Hs as (fs & (Wh & _) & _); exact Wh|].
  exists f. destruct (value_agrees pl f) as [A S]. split; [eapply vstate_in_memory; eassumption|]. intros PL. split; [apply (P1 PL)|]. intros x. rewrite (proj1 (proj2 G)). apply PL.
Qed.

(** A voucher made by any history, with memory running out or not. *)
Lemma life_serialize : forall h0 ops rcs v h pl, heap_wf h0 -> Forall (op_ok h0) ops -> voucher_life h0 ops rcs v h ->
  exists f, (plenty h0 -> f = final h0 ops) /\ forall r, fits (value_of pl f) -> serialize_voucher (Some (value_of pl f)) = Ok r ->
    match h_serialize_voucher h v pl with
    | UB k => k = NullDeref /\ starved h
    | Ok (p, h') => new_string h r p h'
    end.
Proof.
  intros h0 ops rcs v h pl W Hop L. destruct (life_in_memory h0 ops rcs v h pl W Hop L) as (Wh & f & M & P). exists f. split; [intros PL; apply (P PL)|].
  intros r Fw Er. eapply serialize_memory; eassumption.
Qed.

(** A voucher that was read. *)
Lemma reread_memory : forall js h0 w r, bytes_ok js -> blen js < 2147483648 -> heap_wf h0 -> plenty h0 -> deserialize_voucher true (Some js) = Ok (Some w) ->
  fits w -> serialize_voucher (Some w) = Ok r ->
  exists v h p h', h_deserialize_voucher h0 js = Ok (v, h) /\ h_serialize_voucher h v w = Ok (p, h') /\ kept (hp_next h) h h' /\
    match r with
    | None => p = 0 /\ no_leak (hp_next h) h'
    | Some t => p <> 0 /\ hp_cell h' p = Live (Buf (t ++ [0])) /\ forall a, hp_next h <= a -> (is_live h' a <-> a = p)
    end.
Proof.
  intros js h0 w r Hb HJ W PL Ew Fw Er. destruct (deserialize_life js h0 Hb HJ W (PL _)) as (v & h & E & G & Cs).
  destruct Cs as [[-> Q]|[V0 (f & lk & Hs & Q)]]; [destruct (Q PL) as [X _]; congruence|]. destruct (Q PL) as [(w' & Ew' & A) _]. assert (w' = w) as -> by congruence.
  assert (M : in_memory h v w w) by (eapply vstate_in_memory; [exact Hs|exact A|repeat split]).
  assert (Wh : heap_wf h) by (destruct Hs as (fs & (Wh & _) & _); exact Wh). assert (PLh : plenty h) by (intros x; rewrite (proj1 (proj2 G)); apply PL).
  destruct (serialize_memory_plenty h v w w r Wh PLh M Fw Er) as (p & h' & X). exists v, h, p, h'. split; [exact E|exact X].
Qed.

Lemma serialize_crash_refuted : exists h0 ops rcs v h pl t, heap_wf h0 /\ Forall (op_ok h0) ops /\ voucher_life h0 ops rcs v h /\
  in_memory h v pl (value_of pl (final h0 ops)) /\ fits (value_of pl (final h0 ops)) /\ serialize_voucher (Some (value_of pl (final h0 ops))) = Ok (Some t) /\
  h_serialize_voucher h v pl = UB NullDeref.
Proof.
  set (h0 := my_heap (fun x => x =? 11)). set (ops := [SetString ASerial 1]).
  set (h1 := snd (h_init_voucher h0)). set (h2 := match calls (do_op 5) h1 ops with Ok (_, h) => h | _ => h0 end).
  exists h0, ops, [0%Z], 5, h2, init_voucher. eexists. split; [apply my_wf|]. assert (Hop : Forall (op_ok h0) ops) by (apply Forall_cons; [apply my_string|apply Forall_nil]). split; [exact Hop|].
  split; [exists h1; split; [reflexivity|]; split; [discriminate|vm_compute; reflexivity]|]. split; [|split; [|split; vm_compute; reflexivity]].
  - split; [discriminate|]. split; [|split; [|repeat split]].
    + exists 6. split; [vm_compute; reflexivity|]. vm_compute. split; [discriminate|reflexivity].
    + intros a i b Hf Hb. exists 0. destruct a; try discriminate; injection Hf as <-; injection Hb as <-; (split; [vm_compute; reflexivity|split; vm_compute; reflexivity]).
  - split; [|split].
    + intros s Hs. vm_compute in Hs. injection Hs as <-. vm_compute. reflexivity.
    + intros a b d Hb. destruct a; try discriminate; injection Hb as <-; discriminate.
    + intros t Ht. vm_compute in Ht. injection Ht as <-. vm_compute. reflexivity.
Qed.
