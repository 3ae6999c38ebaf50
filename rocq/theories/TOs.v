(** Property theorems C49-C50: string and memory helpers. *)
From Verif Require Import Base MBase64 MSerialize MOs POs.
Open Scope N_scope.

(** C49. [dest] is the whole destination object, [rest] the memory after the
    source string. The bytes after the terminator keep their old content. *)
Theorem C49_strlcpy : forall dest s rest siz, cstr_ok s -> 0 < siz -> siz <= blen dest ->
  siz < size_mod ->
  let k := N.to_nat (N.min (blen s) (siz - 1)) in
  sys_strlcpy dest (s ++ 0 :: rest) siz = Ok (firstn k s ++ 0 :: skipn (S k) dest, blen s).
Proof. exact strlcpy_spec. Qed.
Print Assumptions C49_strlcpy.

(** "for every destination size" is false: size 0 writes before the buffer. *)
Theorem C49_strlcpy_size0_refuted : exists dest src, cstr_ok src /\
  sys_strlcpy dest (src ++ [0]) 0 = UB OOBWrite.
Proof. exact strlcpy_zero_refuted. Qed.
Print Assumptions C49_strlcpy_size0_refuted.

Example C49_case : sys_strlcpy (s2b "......") (s2b "hello" ++ [0; 7]) 4 = Ok (s2b "hel" ++ [0] ++ s2b "..", 5) /\
  sys_strlcpy (s2b "......") (s2b "hi" ++ [0]) 6 = Ok (s2b "hi" ++ [0] ++ s2b "...", 2).
Proof. vm_compute. split; reflexivity. Qed.

(** C50. *)
Theorem C50_strnlen : forall s rest m, cstr_ok s ->
  sys_strnlen_s (s ++ 0 :: rest) m = Ok (N.min (blen s) m).
Proof. exact strnlen_spec. Qed.
Print Assumptions C50_strnlen.

Theorem C50_strndup : forall s rest n, cstr_ok s -> n < SIZE_MAX ->
  exists block, sys_strndup true (Some (s ++ 0 :: rest)) n = Ok (Some block) /\
    blen block = n + 1 /\ upto_nul block = firstn (N.to_nat n) s.
Proof. exact strndup_spec. Qed.
Print Assumptions C50_strndup.

Theorem C50_memdup : forall d rest,
  sys_memdup true (Some (d ++ rest)) (blen d) = Ok (Some d).
Proof. exact memdup_spec. Qed.
Print Assumptions C50_memdup.

Theorem C50_memdup_fail : forall s len, sys_memdup false s len = Ok None /\
  sys_memdup true None len = Ok None.
Proof. exact memdup_null_oom. Qed.
Print Assumptions C50_memdup_fail.

Theorem C50_realloc_array : forall nmemb size, nmemb < size_mod -> size < size_mod ->
  (size_mod <= nmemb * size -> sys_realloc_array nmemb size = None) /\
  (nmemb * size < size_mod -> sys_realloc_array nmemb size = Some (nmemb * size)).
Proof. exact realloc_array_spec. Qed.
Print Assumptions C50_realloc_array.

Example C50_case : sys_realloc_array 4294967296 4294967296 = None /\
  sys_realloc_array 4294967295 4294967297 = Some 18446744073709551615 /\
  sys_strndup true (Some (s2b "serial" ++ [0])) 3 = Ok (Some (s2b "ser" ++ [0])) /\
  sys_strnlen_s (s2b "serial" ++ [0]) 128 = Ok 6.
Proof. vm_compute. repeat split. Qed.
