(** Property theorems C131 (JSON documents of any shape and depth are tokenized as
    they are written) and C132 (what they are read as). *)
From Verif Require Import Base MBase64 MJsmn MVoucher SVoucher SJson SJsonTree SJsonVoucher PJsonTree2 PJsonTree3 PJsonVoucher PJsonVoucher2.
Open Scope N_scope.

(** C131. Every value and every key of the document, in order, with its kind, the
    number of things inside, and its text. *)
Theorem C131_read : forall v w1 w2 num, proper v -> Forall space w1 -> Forall space w2 -> (List.length (pieces v) <= num)%nat ->
  exists ts, jsmn_parse (w1 ++ text v ++ w2) num = inl ts /\ map (look (w1 ++ text v ++ w2)) ts = pieces v.
Proof. exact tree_read. Qed.
Print Assumptions C131_read.

(** Where the tokens are, and that nothing but the number of slots matters. *)
Theorem C131_exact : forall v w1 w2 num, proper v -> Forall space w1 -> Forall space w2 ->
  jsmn_parse (w1 ++ text v ++ w2) num = if (List.length (tokens (blen w1) v) <=? num)%nat then inl (tokens (blen w1) v) else inr JNoMem.
Proof. exact tree_exact. Qed.
Print Assumptions C131_exact.

Theorem C131_full : forall v w1 w2 num, proper v -> Forall space w1 -> Forall space w2 -> (num < List.length (pieces v))%nat ->
  jsmn_parse (w1 ++ text v ++ w2) num = inr JNoMem.
Proof. exact tree_full. Qed.
Print Assumptions C131_full.

Example C131_case : proper nested /\
  text nested = s2b "{""a\u00e9\"""": [1, {} , ""x""], ""ok"":true}" /\
  pieces nested = [(TObject, 2%Z, text nested); (TString, 1%Z, s2b "a\u00e9\" ++ [34]); (TArray, 3%Z, s2b "[1, {} , ""x""]"); (TPrim, 0%Z, s2b "1"); (TObject, 0%Z, s2b "{}"); (TString, 0%Z, s2b "x");
                   (TString, 1%Z, s2b "ok"); (TPrim, 0%Z, s2b "true")] /\
  jsmn_parse ([9] ++ text nested ++ [10]) 7 = inr JNoMem.
Proof. split; [exact nested_proper|]. repeat split; vm_compute; reflexivity. Qed.

(** C132 is false: the voucher is found in a list under another key ... *)
Theorem C132_refuted : exists x u, let v := JTable [] (MMore [] (s2b "x") [] [] x [] MNone) in proper v /\ text v = s2b "{""x"":[""ietf"",{""nonce"":""AQID""}]}" /\
  ~ prefix_of_root (s2b "x") /\ deserialize_voucher true (Some (text v)) = Ok (Some u) /\ get_attr_array (Some u) ANonce = Some (ba_of [1; 2; 3]).
Proof. exact nested_refuted. Qed.
Print Assumptions C132_refuted.

(** ... and a voucher of valid members is refused for their number. *)
Theorem C132_many_refuted : exists v l pairs kvs, proper v /\ v = JTable [] (MMore [] root_name [] [] (JTable [] l) [] MNone) /\ leaf_members l = Some pairs /\ pairs_mean pairs kvs /\
  deserialize_voucher true (Some (text v)) = Ok None.
Proof. exact many_refuted. Qed.
Print Assumptions C132_many_refuted.

(** What holds for documents of any shape with at most 32 values and keys: the
    pairs behind the first text that begins the root name decide. *)
Theorem C132_exact_partial : forall v w1 w2, proper v -> Forall space w1 -> Forall space w2 -> blen (w1 ++ text v ++ w2) < 2147483648 ->
  (List.length (pieces v) <= 32)%nat ->
  (exists pairs kvs u, voucher_pairs v = Some pairs /\ pairs_mean pairs kvs /\ deserialize_voucher true (Some (w1 ++ text v ++ w2)) = Ok (Some u) /\ holds_exactly u kvs) \/
  ((forall pairs kvs, voucher_pairs v = Some pairs -> ~ pairs_mean pairs kvs) /\ deserialize_voucher true (Some (w1 ++ text v ++ w2)) = Ok None).
Proof. exact doc_exact. Qed.
Print Assumptions C132_exact_partial.

(** The claim itself for a voucher object that comes first and holds no objects or
    lists, whatever comes behind it. *)
Theorem C132_members_partial : forall o1 o2 w a1 key a2 a3 w' l a4 more pairs, let v := JTable w (MMore a1 key a2 a3 (JTable w' l) a4 more) in
  proper v -> Forall space o1 -> Forall space o2 -> blen (o1 ++ text v ++ o2) < 2147483648 -> (List.length (pieces v) <= 32)%nat ->
  prefix_of_root key -> leaf_members l = Some pairs ->
  (forall kvs, pairs_mean pairs kvs -> exists u, deserialize_voucher true (Some (o1 ++ text v ++ o2)) = Ok (Some u) /\ holds_exactly u kvs) /\
  ((forall kvs, ~ pairs_mean pairs kvs) -> deserialize_voucher true (Some (o1 ++ text v ++ o2)) = Ok None).
Proof. exact members_read. Qed.
Print Assumptions C132_members_partial.

(** More than 32 values and keys, whatever they are. *)
Theorem C132_full : forall v w1 w2, proper v -> Forall space w1 -> Forall space w2 ->
  (32 < List.length (pieces v))%nat -> deserialize_voucher true (Some (w1 ++ text v ++ w2)) = Ok None.
Proof. exact doc_full. Qed.
Print Assumptions C132_full.

Example C132_case : proper followed /\
  text followed = s2b "{" ++ [10] ++ s2b """ietf-voucher:voucher"": {""serial-number"":""A1"", ""nonce"" :""AQID""},""more"":[{""nonce"":""AAAA""}]}" /\
  voucher_pairs followed = Some [(s2b "serial-number", s2b "A1"); (s2b "nonce", s2b "AQID")] /\ List.length (pieces followed) = 12%nat /\
  deserialize_voucher true (Some (text followed)) = Ok (Some (with_nonce (with_serial init_voucher (Some (s2b "A1"))) (ba_of [1; 2; 3]))).
Proof. split; [exact followed_proper|]. repeat split; vm_compute; reflexivity. Qed.
