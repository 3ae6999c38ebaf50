(** Property theorems C14-C19: binary arrays and voucher attributes. *)
From Verif Require Import Base SBase64 MSerialize MVoucher SVoucher PVoucher.
Open Scope N_scope.

(** C14. *)
Theorem C14_compare : forall x y d1 d2, ba_is x d1 -> ba_is y d2 -> exists r,
  compare_binary_array (Some x) (Some y) = Ok r /\ (r = 1%Z <-> d1 = d2) /\ (r = 0%Z <-> d1 <> d2).
Proof. exact compare_spec_iff. Qed.
Print Assumptions C14_compare.

Theorem C14_compare_missing : forall x y, (x = None \/ y = None) -> compare_binary_array x y = Ok (-1)%Z.
Proof. exact compare_null. Qed.
Print Assumptions C14_compare_missing.

Theorem C14_copy : forall dst src d, ba_is src d -> exists b,
  copy_binary_array true dst (Some src) = Ok (0%Z, b) /\ ba_is b d /\
  compare_binary_array (Some src) (Some b) = Ok 1%Z.
Proof. exact copy_compare. Qed.
Print Assumptions C14_copy.

Example C14_case : ba_is (ba_of [1;2;3]) [1;2;3] /\
  compare_binary_array (Some (ba_of [1;2;3])) (Some (ba_of [1;2;4])) = Ok 0%Z /\
  compare_binary_array (Some (ba_of [1;2;3])) (Some (ba_of [1;2])) = Ok 0%Z /\
  copy_binary_array true (ba_of [9]) (Some (ba_of [1;2;3])) = Ok (0%Z, ba_of [1;2;3]) /\
  copy_binary_array false (ba_of [9]) (Some (ba_of [1;2;3])) = Ok ((-1)%Z, ba_null).
Proof. vm_compute. repeat split. Qed.

(** C15. Whatever the allocator does: success means the value reads back. *)
Theorem C15_set_get : forall mok v a x v',
  set_attr mok (Some v) a x = Ok (0%Z, Some v') ->
  reads_back v' a x /\ (value_present x -> is_attr_nonempty v' a = true).
Proof. exact set_attr_reads_back. Qed.
Print Assumptions C15_set_get.

(** Valid values are accepted. *)
Theorem C15_set_accepts : forall v,
  (forall a t, kind a = KTime -> exists v', set_attr true (Some v) a (VTime (Some t)) = Ok (0%Z, Some v')) /\
  (forall z, (1 <= z <= 3)%Z -> exists v', set_attr true (Some v) AAssertion (VInt z) = Ok (0%Z, Some v')) /\
  (forall z, exists v', set_attr true (Some v) ARevocation (VInt z) = Ok (0%Z, Some v')) /\
  (forall s rest, cstr_ok s -> blen s < 128 ->
     exists v', set_attr true (Some v) ASerial (VStr (Some (s ++ 0 :: rest))) = Ok (0%Z, Some v')) /\
  (forall a d, kind a = KArr -> exists v', set_attr true (Some v) a (VArr (Some (ba_of d))) = Ok (0%Z, Some v')).
Proof. exact set_attr_accepts. Qed.
Print Assumptions C15_set_accepts.

(** The base64 setter stores the decoding of exactly the given text. *)
Theorem C15_set_base64 : forall mok v a mem len v', bytes_ok mem ->
  set_attr_base64 mok (Some v) a mem len = Ok (0%Z, Some v') ->
  exists t rest d, mem = t ++ rest /\ blen t = len /\ rfc_decode t = Some d /\
    get_attr_array (Some v') a = Some (ba_of d) /\ is_attr_nonempty v' a = true.
Proof. exact set_base64_reads_back. Qed.
Print Assumptions C15_set_base64.

Example C15_case : exists v', set_attr true (Some init_voucher) ANonce (VArr (Some (ba_of [7;8;9]))) = Ok (0%Z, Some v') /\
  get_attr_array (Some v') ANonce = Some (ba_of [7;8;9]) /\ is_attr_nonempty v' ANonce = true /\
  is_attr_nonempty v' APinned = false.
Proof. eexists. vm_compute. repeat split. Qed.
Example C15_case_b64 : exists v', set_attr_base64 true (Some init_voucher) ANonce (s2b "AQID,junk") 4 = Ok (0%Z, Some v') /\
  get_attr_array (Some v') ANonce = Some (ba_of [1;2;3]).
Proof. eexists. vm_compute. repeat split. Qed.

(** C16. Every operation, successful or not. *)
Theorem C16_frame : forall v o r v' b, op_mem_ok o ->
  run_op (Some v) o = Ok (r, v') -> b <> op_attr o ->
  exists v'', v' = Some v'' /\ observe v'' b = observe v b.
Proof. exact op_frame_ok. Qed.
Print Assumptions C16_frame.

Example C16_case : exists v v', 
  run_ops (Some init_voucher) [OpEnum AAssertion 3; OpStr true ASerial (Some (s2b "A1" ++ [0]))] = Ok (Some v) /\
  run_op (Some v) (OpArr false ANonce (Some (ba_of [1]))) = Ok ((-1)%Z, Some v') /\
  get_attr_str (Some v') ASerial = Some (Some (s2b "A1")) /\ get_attr_enum (Some v') AAssertion = Some 3%Z.
Proof. eexists. eexists. vm_compute. repeat split. Qed.

(** C17. Wrong kinds and invalid values are refused without any effect. *)
Theorem C17_rejected : forall v o, must_reject o -> run_op (Some v) o = Ok ((-1)%Z, Some v).
Proof. exact reject_spec. Qed.
Print Assumptions C17_rejected.

Example C17_case :
  must_reject (OpEnum AAssertion 4) /\ must_reject (OpArr true ASerial (Some (ba_of [1]))) /\
  must_reject (OpBase64 true ANonce (s2b "A") 1) /\
  must_reject (OpStr true ASerial (Some (repeat 65 128 ++ [0]))).
Proof.
  split; [right; lia|]. split; [left; discriminate|]. split.
  - exists (s2b "A"), []. repeat split; [repeat constructor|]. right. vm_compute. reflexivity.
  - right. right. exists (repeat 65 128), []. split; [reflexivity|]. split; [|vm_compute; discriminate].
    intros H. apply repeat_spec in H. discriminate.
Qed.

(** "without effect" is false of these refusals: a NULL array of non-zero
    length, and an exhausted allocator, erase the old value; a NULL date is
    dereferenced. *)
Theorem C17_null_array_refuted : exists v v',
  get_attr_array (Some v) ANonce = Some (ba_of [1; 2; 3]) /\
  set_attr_array true (Some v) ANonce (Some (mk_ba None 5)) = Ok ((-1)%Z, Some v') /\
  get_attr_array (Some v') ANonce = Some ba_null.
Proof. exact reject_null_array_erases. Qed.
Print Assumptions C17_null_array_refuted.

Theorem C17_oom_refuted : exists v v',
  get_attr_str (Some v) ASerial = Some (Some (s2b "12345")) /\
  set_attr_str false (Some v) ASerial (Some (s2b "678" ++ [0])) = Ok ((-1)%Z, Some v') /\
  get_attr_str (Some v') ASerial = Some None.
Proof. exact oom_erases. Qed.
Print Assumptions C17_oom_refuted.

Theorem C17_null_date_refuted : exists v, set_attr_time (Some v) ACreatedOn None = UB NullDeref.
Proof. exact null_time_ub. Qed.
Print Assumptions C17_null_date_refuted.

(** C18. All histories of set and clear operations, with any allocator; parsed
    vouchers are covered by C18_parsed in TVoucherJson.v. *)
Theorem C18_history : forall ops v', Forall op_mem_ok ops ->
  run_ops (Some init_voucher) ops = Ok v' -> exists v'', v' = Some v'' /\ voucher_wf v''.
Proof. exact history_wf. Qed.
Print Assumptions C18_history.

(** The same from every well-formed voucher. *)
Theorem C18_step : forall ops v v', Forall op_mem_ok ops -> voucher_wf v ->
  run_ops (Some v) ops = Ok v' -> exists v'', v' = Some v'' /\ voucher_wf v''.
Proof. exact ops_wf. Qed.
Print Assumptions C18_step.

Example C18_case : exists v, run_ops (Some init_voucher)
  [OpSet true ASerial (VStr (Some (s2b "SN" ++ [0]))); OpBase64 true ANonce (s2b "AQID") 4;
   OpEnum AAssertion 9; OpArr false APinned (Some (ba_of [5])); OpClear ASerial] = Ok (Some v) /\
  get_attr_array (Some v) ANonce = Some (ba_of [1;2;3]).
Proof. eexists. vm_compute. split; reflexivity. Qed.

(** C19. *)
Theorem C19_clear : forall v a, exists v', clear_attr (Some v) a = (0%Z, Some v') /\
  attr_blank v' a /\ clear_attr (Some v') a = (0%Z, Some v') /\
  (forall b, b <> a -> observe v' b = observe v b).
Proof. exact clear_spec. Qed.
Print Assumptions C19_clear.

Example C19_case : forall v, clear_attr (Some (with_nonce v (ba_of [1;2]))) ANonce = (0%Z, Some (with_nonce v ba_null)).
Proof. reflexivity. Qed.
