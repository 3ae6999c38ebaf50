(** Witnesses about the memory owned by a voucher. *)
From Verif Require Import Base PBase MBase64 MJsmn MVoucher MHeap MVoucherHeap SHeap SArray SVoucherHeap PVoucher PJsmn PVoucherHeap PVoucherHeapJson.
Open Scope N_scope.

(** The caller's memory: two arrays, and a string. *)
Definition my_heap (oom : N -> bool) : heap :=
  mk_heap 5 (fun a => if a =? 1 then Live (Buf (s2b "hello" ++ [0])) else if a =? 2 then Live (Struct [P 1; I 5])
                 else if a =? 3 then Live (Buf [7; 0; 9]) else if a =? 4 then Live (Struct [P 3; I 3]) else Fresh) oom.
Lemma my_wf : forall oom, heap_wf (my_heap oom).
Proof.
  intros oom. split; [cbn; lia|]. split; [reflexivity|]. intros a Ha. cbn in Ha. cbn.
  destruct (a =? 1) eqn:E1; [lia|]. destruct (a =? 2) eqn:E2; [lia|]. destruct (a =? 3) eqn:E3; [lia|]. destruct (a =? 4) eqn:E4; [lia|]. reflexivity.
Qed.
Lemma my_array : forall oom a s n, (s = 2 \/ s = 4) -> n = 0%nat -> op_ok (my_heap oom) (SetArray a s n).
Proof.
  intros oom a s n [->| ->] ->; right.
  - exists [P 1; I 5], 1, 5. split; [reflexivity|]. split; [discriminate|]. split; [reflexivity|]. split; [reflexivity|]. right. split; [discriminate|]. eexists. split; [reflexivity|vm_compute; discriminate].
  - exists [P 3; I 3], 3, 3. split; [reflexivity|]. split; [discriminate|]. split; [reflexivity|]. split; [reflexivity|]. right. split; [discriminate|]. eexists. split; [reflexivity|vm_compute; discriminate].
Qed.
Lemma my_string : forall oom a, op_ok (my_heap oom) (SetString a 1).
Proof. intros oom a. right. eexists. split; [reflexivity|]. vm_compute. tauto. Qed.


Lemma voucher_leak_refuted : exists h0 ops v h2 h3 a, heap_wf h0 /\ plenty h0 /\ Forall (op_ok h0) ops /\
  voucher_life h0 ops [0; 0]%Z v h2 /\ h_free_voucher h2 v = Ok h3 /\ hp_next h0 <= a /\ is_live h3 a.
Proof.
  set (h0 := my_heap (fun _ => false)). set (ops := [SetArray ANonce 2 0; SetArray ANonce 4 0]).
  set (h1 := snd (h_init_voucher h0)). set (h2 := match calls (do_op 5) h1 ops with Ok (_, h) => h | _ => h0 end).
  set (h3 := match h_free_voucher h2 5 with Ok h => h | _ => h0 end).
  exists h0, ops, 5, h2, h3, 6. split; [apply my_wf|]. split; [intros a; reflexivity|]. split; [repeat apply Forall_cons; try apply Forall_nil; apply my_array; auto|].
  split; [exists h1; split; [reflexivity|]; split; [discriminate|vm_compute; reflexivity]|]. split; [vm_compute; reflexivity|]. split; [discriminate|]. eexists. vm_compute. reflexivity.
Qed.

Lemma voucher_self_refuted : exists h0 ops rcs v h a i d h', heap_wf h0 /\ plenty h0 /\ Forall (op_ok h0) ops /\ voucher_life h0 ops rcs v h /\
  arr_field a = Some i /\ h_get_array h v i = Ok (Some d) /\ h_set_attr_array h v a (v, i) = Ok (0%Z, h') /\ h_get_array h' v i <> Ok (Some d).
Proof.
  set (h0 := my_heap (fun _ => false)). set (ops := [SetArray ANonce 2 0]).
  set (h1 := snd (h_init_voucher h0)). set (h2 := match calls (do_op 5) h1 ops with Ok (_, h) => h | _ => h0 end).
  set (h3 := match h_set_attr_array h2 5 ANonce (5, 5%nat) with Ok (_, h) => h | _ => h0 end).
  exists h0, ops, [0%Z], 5, h2, ANonce, 5%nat, (s2b "hello"), h3. split; [apply my_wf|]. split; [intros a; reflexivity|]. split; [repeat apply Forall_cons; try apply Forall_nil; apply my_array; auto|].
  split; [exists h1; split; [reflexivity|]; split; [discriminate|vm_compute; reflexivity]|]. split; [reflexivity|]. split; [vm_compute; reflexivity|]. split; [vm_compute; reflexivity|]. vm_compute. discriminate.
Qed.

Lemma voucher_failed_refuted : exists h0 ops rcs v h op h' d, heap_wf h0 /\ Forall (op_ok h0) ops /\ voucher_life h0 ops rcs v h /\ op_ok h0 op /\
  target op = ANonce /\ h_get_array h v 5 = Ok (Some d) /\ do_op v h op = Ok ((-1)%Z, h') /\ h_get_array h' v 5 <> Ok (Some d).
Proof.
  set (h0 := my_heap (fun x => x =? 7)). set (ops := [SetArray ANonce 2 0]).
  set (h1 := snd (h_init_voucher h0)). set (h2 := match calls (do_op 5) h1 ops with Ok (_, h) => h | _ => h0 end).
  set (op := SetArray ANonce 4 0). set (h3 := match do_op 5 h2 op with Ok (_, h) => h | _ => h0 end).
  exists h0, ops, [0%Z], 5, h2, op, h3, (s2b "hello"). split; [apply my_wf|]. split; [repeat apply Forall_cons; try apply Forall_nil; apply my_array; auto|].
  split; [exists h1; split; [reflexivity|]; split; [discriminate|vm_compute; reflexivity]|]. split; [apply my_array; auto|]. split; [reflexivity|]. split; [vm_compute; reflexivity|]. split; [vm_compute; reflexivity|]. vm_compute. discriminate.
Qed.

Definition twice : bytes := s2b "{""ietf-voucher:voucher"":{""nonce"":""aGVsbG8="",""nonce"":""aGVsbG8=""}}".
Definition once : bytes := s2b "{""ietf-voucher:voucher"":{""nonce"":""aGVsbG8="",""serial-number"":""A1"",""assertion"":""proximity""}}".

Lemma deserialize_leak_refuted : exists js h0 v h h' a, bytes_ok js /\ blen js < 2147483648 /\ heap_wf h0 /\ plenty h0 /\
  h_deserialize_voucher h0 js = Ok (v, h) /\ v <> 0 /\ h_free_voucher h v = Ok h' /\ hp_next h0 <= a /\ is_live h' a.
Proof.
  set (h0 := my_heap (fun _ => false)).
  set (h := match h_deserialize_voucher h0 twice with Ok (_, h) => h | _ => h0 end). set (h' := match h_free_voucher h 5 with Ok h => h | _ => h0 end).
  exists twice, h0, 5, h, h', 8. split; [apply bytes_okb_ok; vm_compute; reflexivity|]. split; [vm_compute; reflexivity|]. split; [apply my_wf|]. split; [intros a; reflexivity|].
  split; [vm_compute; reflexivity|]. split; [discriminate|]. split; [vm_compute; reflexivity|]. split; [discriminate|]. eexists. vm_compute. reflexivity.
Qed.

(** Deciding whether a name is repeated. *)
Definition at_pos (n J : bytes) (k : nat) : bool := beqb (firstn (List.length n) (skipn k J)) n.
Definition repeatedb (n J : bytes) : bool :=
  existsb (fun k => at_pos n J k && existsb (fun m => at_pos n J (k + List.length n + m)) (seq 0 (S (List.length J)))) (seq 0 (S (List.length J))).
Lemma at_pos_app : forall n A B, at_pos n (A ++ n ++ B) (List.length A) = true.
Proof. intros n A B. unfold at_pos. rewrite skipn_app, skipn_all, Nat.sub_diag. cbn [app skipn]. rewrite firstn_app, firstn_all, Nat.sub_diag. cbn [firstn]. rewrite app_nil_r. apply beqb_eq. reflexivity. Qed.
Lemma repeated_b : forall n J, repeated n J -> repeatedb n J = true.
Proof.
  intros n J (A & B & C0 & ->). unfold repeatedb. apply existsb_exists. exists (List.length A). split; [apply in_seq; rewrite !app_length; lia|].
  apply andb_true_intro. split; [apply at_pos_app|]. apply existsb_exists. exists (List.length B). split; [apply in_seq; rewrite !app_length; lia|].
  replace (A ++ n ++ B ++ n ++ C0) with ((A ++ n ++ B) ++ n ++ C0) by (rewrite <- !app_assoc; reflexivity).
  replace (List.length A + List.length n + List.length B)%nat with (List.length (A ++ n ++ B)) by (rewrite !app_length; lia). apply at_pos_app.
Qed.
Lemma once_unrepeated : forall a, owning a -> ~ repeated (attr_name a) once.
Proof.
  intros a Ho R. apply repeated_b in R. pose proof (owning_all a Ho) as Ha. cbn [all_attrs In] in Ha.
  repeat (destruct Ha as [<-|Ha]; [vm_compute in R; discriminate|]). destruct Ha.
Qed.
