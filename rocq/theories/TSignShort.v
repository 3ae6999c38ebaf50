(** C130: a device short of memory while it makes its key and certificate. *)
From Verif Require Import Base MHeap MArray MConfig MHandlers MHandlerHeap MSignCert MSignHeap SHeap SArray SSignCert SSignHeap SSignShort PSignHeap4 PSignShort3.
Open Scope N_scope.

(** C130, what holds: an error leaves the caller's two arrays empty and nothing else;
    otherwise the arrays hold the key and the certificate as far as there was memory
    for them, and nothing else is left. The full statement is that the arrays hold
    both unless an error is reported, and that the device survives. *)
Theorem C130_outcome_partial : forall nn dv h z h', heap_wf h -> texts_at nn h -> device_ok dv -> full_generate_sign_cert nn dv (caller_arrays h) (hp_next h) (hp_next h + 1) = Ok (z, h') ->
  (z = (-1)%Z /\ no_arrays h h') \/ (z = 0%Z /\ exists r, dv_random dv = Some r /\ both_slots h h' (cert_kept dv r h) (key_kept dv h)).
Proof. exact gen_result. Qed.
Print Assumptions C130_outcome_partial.

(** The certificate is lost for want of memory, the key is kept and success is
    reported. *)
Example C130_case : exists h', full_generate_sign_cert case_text case_device (caller_arrays (short_heap [32])) 17 18 = Ok (0%Z, h') /\
  hp_cell h' 17 = Live (Struct [P 0; I 18446744073709551615]) /\ hp_cell h' 18 = Live (Struct [P 31; I 2]) /\ hp_cell h' 31 = Live (Buf [1; 2]).
Proof. eexists. split; [vm_compute; reflexivity|]. repeat split; reflexivity. Qed.
Example C130_setting : forall l, heap_wf (short_heap l) /\ texts_at case_text (short_heap l) /\ device_ok case_device.
Proof. exact short_setting. Qed.

(** C130, exactly when an error is reported: there are no random bytes, or the first
    allocation refused is one of the two lists or a node of the subject. *)
Theorem C130_error : forall nn dv h, heap_wf h -> texts_at nn h -> device_ok dv ->
  ((exists h', full_generate_sign_cert nn dv (caller_arrays h) (hp_next h) (hp_next h + 1) = Ok ((-1)%Z, h')) <-> dv_random dv = None \/ exists i, In i node_allocs /\ first_refused h i).
Proof. exact gen_error. Qed.
Print Assumptions C130_error.

Example C130_error_case : exists h', full_generate_sign_cert case_text case_device (caller_arrays (short_heap [25])) 17 18 = Ok ((-1)%Z, h') /\
  hp_cell h' 17 = Live (Struct [P 0; I 0]) /\ hp_cell h' 18 = Live (Struct [P 0; I 0]) /\ hp_cell h' 22 = Freed.
Proof. eexists. split; [vm_compute; reflexivity|]. repeat split; reflexivity. Qed.

(** C130, exactly when the device does not survive: the first allocation refused is
    the copy of a text of the subject. *)
Theorem C130_exact : forall nn dv h, heap_wf h -> texts_at nn h -> device_ok dv ->
  ((exists k, full_generate_sign_cert nn dv (caller_arrays h) (hp_next h) (hp_next h + 1) = UB k) <-> dv_random dv <> None /\ exists i, In i text_allocs /\ first_refused h i).
Proof. exact gen_crash. Qed.
Print Assumptions C130_exact.

(** C130 is false: a refused copy of a text ends the device, ... *)
Theorem C130_refuted : exists nn dv h, heap_wf h /\ texts_at nn h /\ device_ok dv /\ full_generate_sign_cert nn dv (caller_arrays h) (hp_next h) (hp_next h + 1) = UB NullDeref.
Proof. exact gen_refuted. Qed.
Print Assumptions C130_refuted.

(** ... and without memory for the key success is reported with both arrays empty. *)
Theorem C130_silent_refuted : exists nn dv h key h', heap_wf h /\ texts_at nn h /\ device_ok dv /\ dv_key dv = Some key /\
  full_generate_sign_cert nn dv (caller_arrays h) (hp_next h) (hp_next h + 1) = Ok (0%Z, h') /\ both_slots h h' None None.
Proof. exact gen_silent. Qed.
Print Assumptions C130_silent_refuted.
