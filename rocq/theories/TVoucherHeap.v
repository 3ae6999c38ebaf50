(** C20, C56, C64, C65, C66: the memory owned by a voucher. *)
From Verif Require Import Base PBase MBase64 MJsmn MVoucher MHeap MVoucherHeap SHeap SArray SVoucherHeap PVoucherHeap PVoucherHeapJson PVoucherHeapFind.
Open Scope N_scope.

(** C20 (release part): after any history of attribute operations, whether or
    not allocations fail, freeing the voucher releases no block twice, uses no
    released block, and leaves the caller's memory as it was. *)
Theorem C20_safe : forall h0 ops v h1, heap_wf h0 -> Forall (op_ok h0) ops -> h_init_voucher h0 = (v, h1) -> v <> 0 ->
  exists rcs h2 h3, voucher_life h0 ops rcs v h2 /\ h_free_voucher h2 v = Ok h3 /\ kept (hp_next h0) h0 h3.
Proof. exact voucher_safe. Qed.
Print Assumptions C20_safe.

(** C20 (exact): the blocks that are never released are one for each operation
    that set an attribute which already had a value. *)
Theorem C20_exact : forall h0 ops, heap_wf h0 -> plenty h0 -> Forall (op_ok h0) ops ->
  exists v h2 h3 lost, voucher_life h0 ops (results h0 unset ops) v h2 /\ h_free_voucher h2 v = Ok h3 /\ kept (hp_next h0) h0 h3 /\
    NoDup lost /\ List.length lost = overwritten h0 unset ops /\ forall a, hp_next h0 <= a -> (is_live h3 a <-> In a lost).
Proof. exact voucher_exact. Qed.
Print Assumptions C20_exact.

(** C20, partial: a history that never sets an attribute which has a value
    (clearing it first is fine) loses nothing. Missing: histories that set an
    attribute again, for which the claim is false (next theorem). *)
Theorem C20_partial : forall h0 ops, heap_wf h0 -> plenty h0 -> Forall (op_ok h0) ops -> overwritten h0 unset ops = 0%nat ->
  exists v h2 h3, voucher_life h0 ops (results h0 unset ops) v h2 /\ h_free_voucher h2 v = Ok h3 /\ kept (hp_next h0) h0 h3 /\ no_leak (hp_next h0) h3.
Proof. exact voucher_no_leak. Qed.
Print Assumptions C20_partial.

(** C20 is false: setting the nonce twice loses the first copy. *)
Theorem C20_refuted : exists h0 ops v h2 h3 a, heap_wf h0 /\ plenty h0 /\ Forall (op_ok h0) ops /\
  voucher_life h0 ops [0; 0]%Z v h2 /\ h_free_voucher h2 v = Ok h3 /\ hp_next h0 <= a /\ is_live h3 a.
Proof. exact voucher_leak_refuted. Qed.
Print Assumptions C20_refuted.

Example C20_case : let h0 := my_heap (fun _ => false) in
  let ops := [SetArray ANonce 2 0; SetString ASerial 1; ClearAttr ANonce; SetArray ANonce 4 0; CopyOwn APinned ANonce; SetArray AIssuer 0 0] in
  overwritten h0 unset ops = 0%nat /\
  exists v h2 h3, voucher_life h0 ops [0; 0; 0; 0; 0; -1]%Z v h2 /\ h_free_voucher h2 v = Ok h3 /\ kept 5 h0 h3 /\ no_leak 5 h3.
Proof.
  intros h0 ops. split; [vm_compute; reflexivity|]. apply (C20_partial h0 ops); [apply my_wf|intros a; reflexivity| |vm_compute; reflexivity].
  repeat apply Forall_cons; try apply Forall_nil; first [solve [apply my_array; auto]|apply my_string|exact Logic.I|left; reflexivity].
Qed.
Example C20_case_oom : let h0 := my_heap (fun x => x =? 7) in
  exists rcs h2 h3, voucher_life h0 [SetString ASerial 1; SetString ASerial 1; SetArray ANonce 4 0] rcs 5 h2 /\ h_free_voucher h2 5 = Ok h3 /\ kept 5 h0 h3.
Proof.
  intros h0. apply (C20_safe h0 _ 5 (snd (h_init_voucher h0))); [apply my_wf| |reflexivity|discriminate].
  repeat apply Forall_cons; try apply Forall_nil; first [solve [apply my_array; auto]|apply my_string].
Qed.

(** C56 is false: setting an array attribute to what its own getter gives
    reports success and leaves it empty. *)
Theorem C56_refuted : exists h0 ops rcs v h a i d h', heap_wf h0 /\ plenty h0 /\ Forall (op_ok h0) ops /\ voucher_life h0 ops rcs v h /\
  arr_field a = Some i /\ h_get_array h v i = Ok (Some d) /\ h_set_attr_array h v a (v, i) = Ok (0%Z, h') /\ h_get_array h' v i <> Ok (Some d).
Proof. exact voucher_self_refuted. Qed.
Print Assumptions C56_refuted.

(** C56, partial: the array of another attribute of the same voucher is copied
    faithfully and stays as it was; the same attribute always becomes empty. *)
Theorem C56_partial : forall h0 ops rcs v h a b i j d, heap_wf h0 -> plenty h0 -> Forall (op_ok h0) ops -> voucher_life h0 ops rcs v h ->
  arr_field a = Some i -> arr_field b = Some j -> h_get_array h v j = Ok (Some d) ->
  exists h', h_set_attr_array h v a (v, j) = Ok (0%Z, h') /\ h_get_array h' v i = Ok (Some (if attr_dec a b then [] else d)) /\
    (a <> b -> h_get_array h' v j = Ok (Some d)).
Proof. exact voucher_copy_own. Qed.
Print Assumptions C56_partial.

Example C56_case : exists v h h', voucher_life (my_heap (fun _ => false)) [SetArray ANonce 4 0] [0%Z] v h /\
  h_set_attr_array h v APinned (v, 5%nat) = Ok (0%Z, h') /\ h_get_array h' v 3 = Ok (Some [7; 0; 9]).
Proof.
  set (h0 := my_heap (fun _ => false)). assert (Hop : Forall (op_ok h0) [SetArray ANonce 4 0]) by (apply Forall_cons; [apply my_array; auto|apply Forall_nil]).
  destruct (C20_exact h0 _ (my_wf _) (fun _ => eq_refl) Hop) as (v & h & h3 & lost & L & _). exists v, h.
  destruct (C56_partial h0 _ _ v h APinned ANonce 3 5 [7; 0; 9] (my_wf _) (fun _ => eq_refl) Hop L eq_refl eq_refl) as (h' & E & G & _).
  - destruct (voucher_contents _ _ _ _ _ (my_wf _) (fun _ => eq_refl) Hop L) as (_ & _ & X). destruct (X h (same_above_refl _ _)) as [_ Y]. rewrite (Y ANonce 5%nat eq_refl). reflexivity.
  - exists h'. split; [exact L|]. split; [exact E|exact G].
Qed.

(** C64: the getters give what the history of the operations says, the result
    codes too, and neither depends on what the caller later does with their own
    memory. *)
Theorem C64_contents : forall h0 ops rcs v h, heap_wf h0 -> plenty h0 -> Forall (op_ok h0) ops -> voucher_life h0 ops rcs v h ->
  rcs = results h0 unset ops /\ kept (hp_next h0) h0 h /\
  forall h', same_above (hp_next h0) h h' ->
    h_get_serial h' v = Ok (final h0 ops ASerial) /\ forall a i, arr_field a = Some i -> h_get_array h' v i = Ok (final h0 ops a).
Proof. exact voucher_contents. Qed.
Print Assumptions C64_contents.

Example C64_case : let h0 := my_heap (fun _ => false) in
  let ops := [SetArray ANonce 2 0; SetString ASerial 1; SetArray ANonce 4 0; ClearAttr APinned; OwnSerial; CopyOwn APrior ANonce] in
  exists v h h3, voucher_life h0 ops [0; 0; 0; 0; 0; 0]%Z v h /\ h_free_voucher h v = Ok h3 /\
    h_get_serial h v = Ok (Some (s2b "hello")) /\ h_get_array h v 5 = Ok (Some [7; 0; 9]) /\ h_get_array h v 7 = Ok (Some [7; 0; 9]) /\ h_get_array h v 3 = Ok None.
Proof.
  intros h0 ops. assert (Hop : Forall (op_ok h0) ops) by (repeat apply Forall_cons; try apply Forall_nil; first [solve [apply my_array; auto]|apply my_string|exact Logic.I]).
  destruct (C20_exact h0 ops (my_wf _) (fun _ => eq_refl) Hop) as (v & h & h3 & lost & L & E & _). exists v, h, h3. split; [exact L|]. split; [exact E|].
  destruct (C64_contents _ _ _ _ _ (my_wf _) (fun _ => eq_refl) Hop L) as (_ & _ & X). destruct (X h (same_above_refl _ _)) as [Y Z].
  split; [rewrite Y; reflexivity|]. split; [rewrite (Z ANonce 5%nat eq_refl); reflexivity|]. split; [rewrite (Z APrior 7%nat eq_refl); reflexivity|rewrite (Z APinned 3%nat eq_refl); reflexivity].
Qed.

(** C65 (release part): for every text, once the voucher struct itself could be
    allocated, reading it releases no block twice and touches no memory of the
    caller, and the result can be freed, whichever other allocations fail. *)
Theorem C65_safe : forall js h0, bytes_ok js -> blen js < 2147483648 -> heap_wf h0 -> hp_oom h0 (hp_next h0) = false ->
  exists v h, h_deserialize_voucher h0 js = Ok (v, h) /\ kept (hp_next h0) h0 h /\
    exists h', h_free_voucher h v = Ok h' /\ kept (hp_next h0) h0 h'.
Proof. exact deserialize_heap_safe. Qed.
Print Assumptions C65_safe.

(** C65, partial: if no name of an owning attribute occurs twice in the text, or the
    text is a flat voucher object whose members have different names, reading it and
    freeing the result loses nothing, accepted or not. Missing: texts that repeat a
    member, for which the claim is false (next theorem). *)
Theorem C65_partial : forall js h0, bytes_ok js -> blen js < 2147483648 -> heap_wf h0 -> plenty h0 ->
  single js ->
  exists v h h', h_deserialize_voucher h0 js = Ok (v, h) /\ h_free_voucher h v = Ok h' /\ kept (hp_next h0) h0 h' /\ no_leak (hp_next h0) h'.
Proof. exact deserialize_no_leak. Qed.
Print Assumptions C65_partial.

(** C65 is false: a text that gives the nonce twice is accepted and the first
    nonce is never released. *)
Theorem C65_refuted : exists js h0 v h h' a, bytes_ok js /\ blen js < 2147483648 /\ heap_wf h0 /\ plenty h0 /\
  h_deserialize_voucher h0 js = Ok (v, h) /\ v <> 0 /\ h_free_voucher h v = Ok h' /\ hp_next h0 <= a /\ is_live h' a.
Proof. exact deserialize_leak_refuted. Qed.
Print Assumptions C65_refuted.

(** C65 (agreement): the voucher in memory holds what the value model of
    [deserialize_voucher] (the one C22 to C28 are about) says, independently of
    the caller's memory. *)
Theorem C65_same : forall js h0, bytes_ok js -> blen js < 2147483648 -> heap_wf h0 -> plenty h0 ->
  exists v h, h_deserialize_voucher h0 js = Ok (v, h) /\
    match deserialize_voucher true (Some js) with
    | Ok (Some w) => v <> 0 /\ forall h', same_above (hp_next h0) h h' -> h_get_serial h' v = Ok (v_serial w) /\
        forall a i b, arr_field a = Some i -> get_attr_array (Some w) a = Some b -> h_get_array h' v i = Ok (ba_data b)
    | Ok None => v = 0
    | UB _ => False
    end.
Proof. exact deserialize_same. Qed.
Print Assumptions C65_same.

Example C65_case : let h0 := my_heap (fun _ => false) in
  (exists v h h', h_deserialize_voucher h0 once = Ok (v, h) /\ h_free_voucher h v = Ok h' /\ kept 5 h0 h' /\ no_leak 5 h') /\
  exists v h, h_deserialize_voucher h0 once = Ok (v, h) /\ v <> 0 /\ h_get_serial h v = Ok (Some (s2b "A1")) /\ h_get_array h v 5 = Ok (Some (s2b "hello")).
Proof.
  intros h0. assert (B : bytes_ok once) by (apply bytes_okb_ok; vm_compute; reflexivity). split.
  - apply (C65_partial once h0); [exact B|vm_compute; reflexivity|apply my_wf|intros a; reflexivity|left; exact once_unrepeated].
  - destruct (C65_same once h0 B eq_refl (my_wf _) (fun _ => eq_refl)) as (v & h & E & X). exists v, h. split; [exact E|].
    destruct (deserialize_voucher true (Some once)) as [[w|]|k] eqn:Ew; vm_compute in Ew; try discriminate. injection Ew as <-. destruct X as [V X]. split; [exact V|].
    destruct (X h (same_above_refl _ _)) as [Y Z]. split; [rewrite Y; reflexivity|]. rewrite (Z ANonce 5%nat _ eq_refl eq_refl). reflexivity.
Qed.

(** C66, partial: whether or not an operation fails, it returns 0 or -1, the
    other attributes keep their values and the voucher can still be freed.
    Missing: that a failed operation keeps the attribute itself, which is false
    (next theorem). *)
Theorem C66_partial : forall h0 ops rcs v h op rc h', heap_wf h0 -> Forall (op_ok h0) ops -> voucher_life h0 ops rcs v h -> op_ok h0 op -> do_op v h op = Ok (rc, h') ->
  (rc = 0%Z \/ rc = (-1)%Z) /\ (target op <> ASerial -> h_get_serial h' v = h_get_serial h v) /\
  (forall b j, b <> target op -> arr_field b = Some j -> h_get_array h' v j = h_get_array h v j) /\
  exists h'', h_free_voucher h' v = Ok h'' /\ kept (hp_next h0) h0 h''.
Proof. exact voucher_failed. Qed.
Print Assumptions C66_partial.

(** C66 is false: when the copy cannot be allocated, the old nonce is gone. *)
Theorem C66_refuted : exists h0 ops rcs v h op h' d, heap_wf h0 /\ Forall (op_ok h0) ops /\ voucher_life h0 ops rcs v h /\ op_ok h0 op /\
  target op = ANonce /\ h_get_array h v 5 = Ok (Some d) /\ do_op v h op = Ok ((-1)%Z, h') /\ h_get_array h' v 5 <> Ok (Some d).
Proof. exact voucher_failed_refuted. Qed.
Print Assumptions C66_refuted.

(** The witness of [C66_refuted] meets the hypotheses of [C66_partial]. *)
Example C66_case : exists h0 ops rcs v h op rc h' h'', voucher_life h0 ops rcs v h /\ do_op v h op = Ok (rc, h') /\ rc = (-1)%Z /\ h_free_voucher h' v = Ok h''.
Proof.
  destruct C66_refuted as (h0 & ops & rcs & v & h & op & h' & d & W & Hop & L & Ho & _ & _ & E & _).
  destruct (C66_partial _ _ _ _ _ _ _ _ W Hop L Ho E) as (_ & _ & _ & h'' & F & _). exists h0, ops, rcs, v, h, op, (-1)%Z, h', h''. auto.
Qed.
