(** Property theorem C28: JSON token offsets. *)
From Verif Require Import Base MJsmn PJsmn.
Open Scope N_scope.

(** C28. For every text and every number of slots. *)
Theorem C28_token_bounds : forall js num toks, jsmn_parse js num = inl toks ->
  (List.length toks <= num)%nat /\
  forall t, In t toks -> (0 <= tk_start t /\ tk_start t <= tk_end t /\ tk_end t <= Z.of_N (blen js) /\ 0 <= tk_size t)%Z.
Proof. exact jsmn_bounds. Qed.
Print Assumptions C28_token_bounds.

Example C28_case : jsmn_parse (s2b "{""a"": [1, true], ""b"":{}}") 32 =
  inl [mk_tok TObject 0 24 2; mk_tok TString 2 3 1; mk_tok TArray 6 15 2; mk_tok TPrim 7 8 0;
       mk_tok TPrim 10 14 0; mk_tok TString 18 19 1; mk_tok TObject 21 23 0].
Proof. vm_compute. reflexivity. Qed.
Example C28_case_full : jsmn_parse (s2b "{""a"": [1, true], ""b"":{}}") 6 = inr JNoMem.
Proof. vm_compute. reflexivity. Qed.
