(** C11, C12, C13: the linked lists of array.c and keyvalue.c. *)
From Verif Require Import Base MHeap MArray SHeap SArray PArray.
Open Scope N_scope.

(** C11: walking the list gives the accepted contents and flags in order, its
    length is the number of accepted pushes, the caller's memory is unchanged,
    and the list does not depend on it any more: whatever happens to that
    memory later, the walk gives the same. *)
Theorem C11_array : forall h0 l rcs H h, built_array h0 l rcs H h ->
  array_items h H = Ok (accepted (array_arg h0) l rcs) /\
  dl_list_len arr_off h H = Ok (N.of_nat (count_occ Z.eq_dec rcs 0%Z)) /\
  kept (hp_next h0) h0 h /\
  (forall h', heap_wf h' -> same_above (hp_next h0) h h' ->
     array_items h' H = Ok (accepted (array_arg h0) l rcs)).
Proof. exact array_thm. Qed.
Print Assumptions C11_array.

Theorem C11_keyvalue : forall h0 l rcs H h, built_keyvalue h0 l rcs H h ->
  keyvalue_items h H = Ok (accepted (keyvalue_arg h0) l rcs) /\
  dl_list_len kv_off h H = Ok (N.of_nat (count_occ Z.eq_dec rcs 0%Z)) /\
  kept (hp_next h0) h0 h /\
  (forall h', heap_wf h' -> same_above (hp_next h0) h h' ->
     keyvalue_items h' H = Ok (accepted (keyvalue_arg h0) l rcs)).
Proof. exact keyvalue_thm. Qed.
Print Assumptions C11_keyvalue.

(** C11: while memory lasts, every push with a buffer is accepted and every
    push with NULL is refused with -1. *)
Theorem C11_array_accepts : forall h0 l, heap_wf h0 -> plenty h0 ->
  Forall (fun x => let '(arr, n, _) := x in arr = 0 \/ readable h0 arr n) l ->
  exists H h, built_array h0 l (map (fun x => let '(arr, _, _) := x in if arr =? 0 then (-1)%Z else 0%Z) l) H h.
Proof. exact array_total. Qed.
Print Assumptions C11_array_accepts.

Theorem C11_keyvalue_accepts : forall h0 l, heap_wf h0 -> plenty h0 ->
  Forall (fun x => (fst x = 0 \/ is_string h0 (fst x)) /\ (snd x = 0 \/ is_string h0 (snd x))) l ->
  exists H h, built_keyvalue h0 l (map (fun x => if (fst x =? 0) || (snd x =? 0) then (-1)%Z else 0%Z) l) H h.
Proof. exact keyvalue_total. Qed.
Print Assumptions C11_keyvalue_accepts.

Example C11_case : exists H h,
  built_array (toy_heap (fun _ => false)) [(1, 5, 3%Z); (0, 4, 1%Z); (2, 2, 9%Z)] [0; -1; 0]%Z H h /\
  array_items h H = Ok [(s2b "hello", 3%Z); (s2b "ke", 9%Z)].
Proof.
  destruct (C11_array_accepts (toy_heap (fun _ => false)) [(1, 5, 3%Z); (0, 4, 1%Z); (2, 2, 9%Z)]) as [H [h B]].
  - apply toy_wf.
  - intros a. reflexivity.
  - repeat apply Forall_cons; try apply Forall_nil; first [left; reflexivity | right; eexists; (split; [reflexivity|vm_compute; discriminate])].
  - exists H, h. split; [exact B|]. destruct (C11_array _ _ _ _ _ B) as [E _]. exact E.
Qed.
Example C11_case_keyvalue : exists H h,
  built_keyvalue (toy_heap (fun _ => false)) [(2, 1); (1, 0); (1, 2)] [0; -1; 0]%Z H h /\
  keyvalue_items h H = Ok [(s2b "key", s2b "hello"); (s2b "hello", s2b "key")].
Proof.
  destruct (C11_keyvalue_accepts (toy_heap (fun _ => false)) [(2, 1); (1, 0); (1, 2)]) as [H [h B]].
  - apply toy_wf.
  - intros a. reflexivity.
  - repeat apply Forall_cons; try apply Forall_nil; cbn [fst snd]; split; first [left; reflexivity | right; eexists; (split; [reflexivity|]); split; [vm_compute; tauto|reflexivity]].
  - exists H, h. split; [exact B|]. destruct (C11_keyvalue _ _ _ _ _ B) as [E _]. exact E.
Qed.

(** C12: freeing succeeds without invalid access or double release, releases
    every block allocated since the list was created, and leaves the memory
    that existed before untouched. *)
Theorem C12_array : forall h0 l rcs H h, built_array h0 l rcs H h ->
  exists h', free_array_list h H = Ok h' /\ kept (hp_next h0) h0 h' /\ no_leak (hp_next h0) h'.
Proof. exact array_free_thm. Qed.
Print Assumptions C12_array.

Theorem C12_keyvalue : forall h0 l rcs H h, built_keyvalue h0 l rcs H h ->
  exists h', free_keyvalue_list h H = Ok h' /\ kept (hp_next h0) h0 h' /\ no_leak (hp_next h0) h'.
Proof. exact keyvalue_free_thm. Qed.
Print Assumptions C12_keyvalue.

(** The three elements of the list of [C11_case] live at 3, 4-5 and 6-7. *)
Example C12_case :
  obind (init_array_list (toy_heap (fun _ => false))) (fun x => let (H, h1) := x in
  obind (calls (fun h x => let '(arr, n, fl) := x in push_array_list h H arr n fl) h1
    [(1, 5, 3%Z); (0, 4, 1%Z); (2, 2, 9%Z)]) (fun y =>
  obind (free_array_list (snd y) H) (fun h =>
  Ok (map (hp_cell h) [2; 3; 4; 5; 6; 7; 8]))))
  = Ok [Live (Buf (s2b "key" ++ [0; 7])); Freed; Freed; Freed; Freed; Freed; Fresh].
Proof. vm_compute. reflexivity. Qed.

(** C13, full statement: at every allocation failure the push returns -1 and
    changes nothing. It fails: when the copy of the data cannot be allocated,
    the clean-up unlinks a node that was never linked and dereferences NULL. *)
Theorem C13_refuted : exists h0 l rcs H h arr n fl,
  built_array h0 l rcs H h /\ readable h0 arr n /\ push_array_list h H arr n fl = UB NullDeref.
Proof. exact array_oom_refuted. Qed.
Print Assumptions C13_refuted.

Theorem C13_keyvalue_refuted : exists h0 l rcs H h key value,
  built_keyvalue h0 l rcs H h /\ is_string h0 key /\ is_string h0 value /\
  push_keyvalue_list h H key value = UB NullDeref.
Proof. exact keyvalue_oom_refuted. Qed.
Print Assumptions C13_keyvalue_refuted.

(** C13: what holds. Failure of the first allocation is reported and changes
    nothing; failure of a later one always crashes; there is no other failure.
    Missing: -1 in the second case. *)
Theorem C13_array_partial : forall h0 l rcs H h arr n fl,
  built_array h0 l rcs H h -> readable h0 arr n ->
  (hp_oom h (hp_next h) = true ->
     exists h', push_array_list h H arr n fl = Ok ((-1)%Z, h') /\ forall a, hp_cell h' a = hp_cell h a) /\
  (hp_oom h (hp_next h) = false -> hp_oom h (hp_next h + 1) = true ->
     push_array_list h H arr n fl = UB NullDeref) /\
  (hp_oom h (hp_next h) = false -> hp_oom h (hp_next h + 1) = false ->
     exists h', push_array_list h H arr n fl = Ok (0%Z, h')).
Proof. exact array_push_cases. Qed.
Print Assumptions C13_array_partial.

Theorem C13_keyvalue_partial : forall h0 l rcs H h key value,
  built_keyvalue h0 l rcs H h -> is_string h0 key -> is_string h0 value ->
  (hp_oom h (hp_next h) = true ->
     exists h', push_keyvalue_list h H key value = Ok ((-1)%Z, h') /\ forall a, hp_cell h' a = hp_cell h a) /\
  (hp_oom h (hp_next h) = false -> hp_oom h (hp_next h + 1) = true \/ hp_oom h (hp_next h + 2) = true ->
     push_keyvalue_list h H key value = UB NullDeref) /\
  (hp_oom h (hp_next h) = false -> hp_oom h (hp_next h + 1) = false -> hp_oom h (hp_next h + 2) = false ->
     exists h', push_keyvalue_list h H key value = Ok (0%Z, h')).
Proof. exact keyvalue_push_cases. Qed.
Print Assumptions C13_keyvalue_partial.
