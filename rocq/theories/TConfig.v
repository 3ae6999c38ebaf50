(** C48, C55, C67, C68: the configuration and the certificate files. *)
From Verif Require Import Base MHeap MArray MConfig SHeap SArray SConfig PArray PConfig PConfigMore PCertFiles PConfigExact.
Open Scope N_scope.

(** C55, full statement: for every file and whatever allocations fail, loading
    ends without invalid memory access, and afterwards (on failure loading has
    released everything itself) each block is released exactly once. False: if
    the allocation of a value inside a list fails, the list is released and the
    pointer to it kept, and the clean-up releases it again. One failing
    allocation is enough. *)
Theorem C55_refuted : exists m h cfg n, heap_wf h /\ ini_ok m /\ zero_cfg h cfg /\ (forall a, hp_oom h a = true <-> a = n) /\
  load_brski_config true m h cfg = UB UseAfterFree.
Proof. exact config_refuted. Qed.
Print Assumptions C55_refuted.

(** C55, what holds: loading succeeds and then releasing gives the heap before
    with nothing left over; or it fails with -1 because the file cannot be
    opened or an allocation failed, having released everything (and the
    destructor's second release does nothing, [C55_again]); or memory ran out
    in a list. Missing: the last case. *)
Theorem C55_partial : forall readable_file m h cfg, heap_wf h -> ini_ok m -> zero_cfg h cfg ->
  (exists h1 h2, load_brski_config readable_file m h cfg = Ok (0%Z, h1) /\ readable_file = true /\
     holds m h1 cfg /\
     free_config_content h1 cfg = Ok h2 /\ kept (hp_next h) h h2 /\ no_leak (hp_next h) h2) \/
  (exists h1, load_brski_config readable_file m h cfg = Ok ((-1)%Z, h1) /\ (readable_file = false \/ oomed h) /\
     kept (hp_next h) h h1 /\ no_leak (hp_next h) h1 /\ heap_wf h1) \/
  (exists k, load_brski_config readable_file m h cfg = UB k /\ (k = NullDeref \/ k = UseAfterFree) /\ readable_file = true /\ oomed h).
Proof. exact config_outcome. Qed.
Print Assumptions C55_partial.

Theorem C55_again : forall h cfg, heap_wf h -> zero_cfg h cfg ->
  exists h', free_config_content h cfg = Ok h' /\ kept (hp_next h) h h' /\ no_leak (hp_next h) h'.
Proof. exact free_zero_config. Qed.
Print Assumptions C55_again.

(** C55: an allocation failure among the strings of a part is handled: -1 and
    everything released. *)
Theorem C55_strings : forall p m h cfg a, In p [pledge_part; registrar_part; masa_part] -> heap_wf h -> ini_ok m -> zero_cfg h cfg ->
  hp_next h <= a < hp_next h + N.of_nat (List.length (pt_strings p)) -> hp_oom h a = true ->
  exists h', load_part p m h cfg = Ok ((-1)%Z, h') /\ kept (hp_next h) h h' /\ no_leak (hp_next h) h'.
Proof. exact part_strings_fail. Qed.
Print Assumptions C55_strings.

Example C55_case : exists h1 h2,
  load_brski_config true (minini two_certs) (cfg_heap (fun _ => false)) 1 = Ok (0%Z, h1) /\
  free_config_content h1 1 = Ok h2 /\ no_leak 2 h2.
Proof.
  destruct (cfg_heap_ok (fun _ => false)) as [W Z].
  destruct (config_plenty (minini two_certs) _ _ W (minini_ok _ two_certs_ok) Z ltac:(intros a; reflexivity)) as (h1 & h2 & E & _ & F & _ & L).
  exists h1, h2. auto.
Qed.
Example C55_strings_case : exists h', load_part masa_part (minini two_certs) (cfg_heap (fun a => a =? 6)) 1 = Ok ((-1)%Z, h') /\ no_leak 2 h'.
Proof.
  destruct (cfg_heap_ok (fun a => a =? 6)) as [W Z].
  destruct (C55_strings masa_part (minini two_certs) _ 1 6 ltac:(right; right; left; reflexivity) W (minini_ok _ two_certs_ok) Z) as (h' & E & _ & L).
  - split; [discriminate|reflexivity].
  - reflexivity.
  - exists h'. auto.
Qed.

(** C68: while memory lasts, a readable file is loaded: every string and every
    list of the three parts holds what the file says. *)
Theorem C68_contents : forall m h cfg, heap_wf h -> ini_ok m -> zero_cfg h cfg -> plenty h ->
  exists h1 h2, load_brski_config true m h cfg = Ok (0%Z, h1) /\
     holds m h1 cfg /\
     free_config_content h1 cfg = Ok h2 /\ kept (hp_next h) h h2 /\ no_leak (hp_next h) h2.
Proof. exact config_plenty. Qed.
Print Assumptions C68_contents.

Example C68_case : exists h1, load_brski_config true (minini two_certs) (cfg_heap (fun _ => false)) 1 = Ok (0%Z, h1) /\
  cfg_string h1 1 1 = Ok (Some (s2b "12345")) /\ cfg_string h1 1 0 = Ok None /\ cfg_string h1 1 11 = Ok (Some (s2b "0.0.0.0")) /\
  cfg_list h1 1 29 = Ok [(s2b "x.crt" ++ [0], 0%Z)] /\ cfg_list h1 1 8 = Ok [].
Proof.
  destruct (cfg_heap_ok (fun _ => false)) as [W Z].
  destruct (C68_contents (minini two_certs) _ _ W (minini_ok _ two_certs_ok) Z ltac:(intros a; reflexivity)) as (h1 & h2 & E & [A1 A2] & _).
  exists h1. split; [exact E|].
  split; [eapply eq_trans; [apply (A1 (s2b "pledge") 1%nat (s2b "serialNumber") [] 2048); cbn [config_strings In]; tauto|vm_compute; reflexivity]|].
  split; [eapply eq_trans; [apply (A1 (s2b "pledge") 0%nat (s2b "createdOn") [] 22); cbn [config_strings In]; tauto|vm_compute; reflexivity]|].
  split; [eapply eq_trans; [apply (A1 (s2b "registrar") 11%nat (s2b "bindAddress") (s2b "0.0.0.0") 2048); cbn [config_strings In]; tauto|vm_compute; reflexivity]|].
  split; [eapply eq_trans; [apply (A2 (s2b "masa") 29%nat (s2b "cmsAdditionalCertPath")); cbn [config_lists In]; tauto|vm_compute; reflexivity]|].
  eapply eq_trans; [apply (A2 (s2b "pledge") 8%nat (s2b "cmsAdditionalCertPath")); cbn [config_lists In]; tauto|vm_compute; reflexivity].
Qed.

(** C67, full statement: for every file, a loaded list holds the non-empty
    values given for its key, in order. False: of two different values the
    first is loaded twice. *)
Theorem C67_refuted : exists f h cfg h1 sec fld key, heap_wf h /\ plenty h /\ file_ok f /\ zero_cfg h cfg /\
  load_brski_config true (minini f) h cfg = Ok (0%Z, h1) /\ In (sec, fld, key) config_lists /\
  Forall (fun e => blen (snd e) < INI_BUFFERSIZE) (entries f sec) /\
  cfg_list h1 cfg fld <> Ok (meant f sec key).
Proof. exact list_refuted. Qed.
Print Assumptions C67_refuted.

(** C67, what holds: the list is right if the values given for the key are all
    the same, in particular if there is only one. *)
Theorem C67_partial : forall f h cfg h1 sec fld key, heap_wf h -> file_ok f -> zero_cfg h cfg ->
  load_brski_config true (minini f) h cfg = Ok (0%Z, h1) ->
  In (sec, fld, key) config_lists ->
  Forall (fun e => blen (snd e) < INI_BUFFERSIZE) (entries f sec) ->
  (forall v v', In (key, v) (entries f sec) -> In (key, v') (entries f sec) -> v = v') ->
  cfg_list h1 cfg fld = Ok (meant f sec key).
Proof. exact list_partial. Qed.
Print Assumptions C67_partial.

(** C67, when it holds exactly. *)
Theorem C67_exact : forall f h cfg h1 sec fld key, heap_wf h -> file_ok f -> zero_cfg h cfg -> load_brski_config true (minini f) h cfg = Ok (0%Z, h1) ->
  In (sec, fld, key) config_lists -> Forall (fun e => blen (snd e) < INI_BUFFERSIZE) (entries f sec) ->
  (cfg_list h1 cfg fld = Ok (meant f sec key) <-> (forall v v', In (key, v) (entries f sec) -> In (key, v') (entries f sec) -> v = v')).
Proof. exact list_right. Qed.
Print Assumptions C67_exact.

Example C67_case : exists h1, load_brski_config true (minini two_certs) (cfg_heap (fun _ => false)) 1 = Ok (0%Z, h1) /\
  cfg_list h1 1 29 = Ok (meant two_certs (s2b "masa") (s2b "cmsAdditionalCertPath")) /\
  meant two_certs (s2b "masa") (s2b "cmsAdditionalCertPath") = [(s2b "x.crt" ++ [0], 0%Z)].
Proof.
  destruct (cfg_heap_ok (fun _ => false)) as [W Z].
  destruct (C68_contents (minini two_certs) _ _ W (minini_ok _ two_certs_ok) Z ltac:(intros a; reflexivity)) as (h1 & _ & E & _).
  exists h1. split; [exact E|]. split; [|vm_compute; reflexivity].
  apply (C67_partial two_certs _ 1 h1 (s2b "masa") 29 (s2b "cmsAdditionalCertPath") W two_certs_ok Z E).
  - cbn [config_lists In]. tauto.
  - vm_compute. repeat apply Forall_cons; try apply Forall_nil; reflexivity.
  - intros v v'. vm_compute. intros [Q|[Q|[]]] [Q'|[Q'|[]]]; congruence.
Qed.

(** C48: while memory lasts and every path (a C string) names a certificate,
    the result is a new list of the certificates in path order, which can be
    released; the rest of the memory is unchanged. *)
Theorem C48_success : forall rd h0 l rcs H h ds, built_array h0 l rcs H h -> plenty h ->
  forall paths, paths = map fst (accepted (array_arg h0) l rcs) -> Forall (In 0) paths -> paths <> [] ->
  map rd (map c_string paths) = map Some ds ->
  exists out h1 h2, load_cert_files rd h H = Ok (0%Z, out, h1) /\ array_items h1 out = Ok (map (fun d => (d, 0%Z)) ds) /\ kept (hp_next h) h h1 /\
    free_array_list h1 out = Ok h2 /\ kept (hp_next h) h h2 /\ no_leak (hp_next h) h2.
Proof. exact cert_success. Qed.
Print Assumptions C48_success.

(** C48: no paths, no list. *)
Theorem C48_empty : forall rd h0 l rcs H h, built_array h0 l rcs H h -> accepted (array_arg h0) l rcs = [] ->
  load_cert_files rd h H = Ok (0%Z, 0, h).
Proof. exact cert_empty. Qed.
Print Assumptions C48_empty.

(** C48, the part on missing files: -1 and no memory left over, but the caller
    is left with a pointer to the released list, so "leaves no list behind" is
    false: reading or releasing it is a use after free. *)
Theorem C48_failure : forall rd h0 l rcs H h, built_array h0 l rcs H h -> plenty h ->
  forall paths, paths = map fst (accepted (array_arg h0) l rcs) -> Forall (In 0) paths ->
  In None (map rd (map c_string paths)) ->
  exists out h1, load_cert_files rd h H = Ok ((-1)%Z, out, h1) /\ kept (hp_next h) h h1 /\ no_leak (hp_next h) h1 /\
    out <> 0 /\ array_items h1 out = UB UseAfterFree /\ free_array_list h1 out = UB UseAfterFree.
Proof. exact cert_failure. Qed.
Print Assumptions C48_failure.

Theorem C48_refuted : exists rd h0 l rcs H h out h1, built_array h0 l rcs H h /\ plenty h /\
  load_cert_files rd h H = Ok ((-1)%Z, out, h1) /\ out <> 0 /\ free_array_list h1 out = UB UseAfterFree.
Proof. exact cert_refuted. Qed.
Print Assumptions C48_refuted.

(** C48 whatever allocations fail: success with the certificates of all paths,
    or -1 with nothing left over because a path is missing or an allocation
    failed, or the crash of [C13_refuted] in the list. *)
Theorem C48_partial : forall rd h0 l rcs H h, built_array h0 l rcs H h ->
  forall paths, paths = map fst (accepted (array_arg h0) l rcs) -> Forall (In 0) paths -> paths <> [] ->
  (exists out h1 h2 ds, load_cert_files rd h H = Ok (0%Z, out, h1) /\ map rd (map c_string paths) = map Some ds /\
     array_items h1 out = Ok (map (fun d => (d, 0%Z)) ds) /\ kept (hp_next h) h h1 /\ free_array_list h1 out = Ok h2 /\ kept (hp_next h) h h2 /\ no_leak (hp_next h) h2) \/
  (exists out h1, load_cert_files rd h H = Ok ((-1)%Z, out, h1) /\ (In None (map rd (map c_string paths)) \/ oomed h) /\ kept (hp_next h) h h1 /\ no_leak (hp_next h) h1 /\
     (out = 0 /\ hp_oom h (hp_next h) = true \/ out <> 0 /\ hp_oom h (hp_next h) = false /\ hp_cell h1 out = Freed)) \/
  (load_cert_files rd h H = UB NullDeref /\ oomed h).
Proof. exact cert_built. Qed.
Print Assumptions C48_partial.

(** Two paths, "hello" and "key"; only the first names a certificate in the
    second case. *)
Example C48_case : exists H h, built_array (toy_heap (fun _ => false)) [(1, 6, 0%Z); (2, 4, 0%Z)] [0; 0]%Z H h /\ plenty h /\
  exists out h1, load_cert_files (fun t => Some (t ++ [1; 2])) h H = Ok (0%Z, out, h1) /\ array_items h1 out = Ok [(s2b "hello" ++ [1; 2], 0%Z); (s2b "key" ++ [1; 2], 0%Z)].
Proof.
  destruct (array_total (toy_heap (fun _ => false)) [(1, 6, 0%Z); (2, 4, 0%Z)]) as [H [h B]].
  - apply toy_wf.
  - intros a. reflexivity.
  - repeat apply Forall_cons; try apply Forall_nil; right; eexists; (split; [reflexivity|vm_compute; discriminate]).
  - exists H, h. split; [exact B|]. assert (PL : plenty h) by (destruct (built_array_inv _ _ _ _ _ B) as (_ & _ & _ & _ & Ho); intros a; rewrite Ho; reflexivity). split; [exact PL|].
    destruct (C48_success (fun t => Some (t ++ [1; 2])) _ _ _ _ _ [s2b "hello" ++ [1; 2]; s2b "key" ++ [1; 2]] B PL _ eq_refl) as (out & h1 & _ & E & I & _).
    + vm_compute. repeat apply Forall_cons; try apply Forall_nil; tauto.
    + vm_compute. discriminate.
    + vm_compute. reflexivity.
    + exists out, h1. split; [exact E|]. rewrite I. reflexivity.
Qed.
Example C48_missing_case : exists H h, built_array (toy_heap (fun _ => false)) [(1, 6, 0%Z); (2, 4, 0%Z)] [0; 0]%Z H h /\
  exists out h1, load_cert_files (fun t => if beqb t (s2b "hello") then Some [1; 2] else None) h H = Ok ((-1)%Z, out, h1) /\ free_array_list h1 out = UB UseAfterFree.
Proof.
  destruct (array_total (toy_heap (fun _ => false)) [(1, 6, 0%Z); (2, 4, 0%Z)]) as [H [h B]].
  - apply toy_wf.
  - intros a. reflexivity.
  - repeat apply Forall_cons; try apply Forall_nil; right; eexists; (split; [reflexivity|vm_compute; discriminate]).
  - exists H, h. split; [exact B|]. assert (PL : plenty h) by (destruct (built_array_inv _ _ _ _ _ B) as (_ & _ & _ & _ & Ho); intros a; rewrite Ho; reflexivity).
    destruct (C48_failure (fun t => if beqb t (s2b "hello") then Some [1; 2] else None) _ _ _ _ _ B PL _ eq_refl) as (out & h1 & E & _ & _ & _ & _ & Fr).
    + vm_compute. repeat apply Forall_cons; try apply Forall_nil; tauto.
    + vm_compute. tauto.
    + exists out, h1. auto.
Qed.
