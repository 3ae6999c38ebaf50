(** Proofs: cases of JSON documents of any shape. *)
From Verif Require Import Base PBase MBase64 SBase64 MSerialize SSerialize MJsmn MVoucher SVoucher SJson PVoucherText PVoucherJson SJsonTree PJsonTree PJsonTree2 PJsonTree3 SJsonVoucher PJsonVoucher.
Open Scope N_scope.

Definition plainb (c : N) : bool := (32 <=? c) && (c <? 256) && negb (c =? 34) && negb (c =? 92).
Lemma plain_string : forall s, forallb plainb s = true -> string_text s.
Proof.
  induction s as [|c s IH]; intros H; cbn [forallb] in H; [constructor|]. apply andb_prop in H. destruct H as [H1 H2]. unfold plainb in H1. apply st_char; [lia|lia|lia|lia|auto].
Qed.
Definition wordb (c : N) : bool := (48 <=? c) && (c <=? 57) || (65 <=? c) && (c <=? 90) || (97 <=? c) && (c <=? 122) || (c =? 43) || (c =? 45) || (c =? 46).
Lemma word_ok : forall s, s <> [] -> forallb wordb s = true -> s <> [] /\ Forall word_char s.
Proof.
  intros s N0 H. split; [exact N0|]. clear N0. induction s as [|c s IH]; cbn [forallb] in H; [constructor|]. apply andb_prop in H. destruct H as [H1 H2]. constructor; [|auto]. unfold wordb in H1. unfold word_char. lia.
Qed.
Lemma space_ok : forall w, forallb (fun c => (c =? 32) || (c =? 9) || (c =? 10) || (c =? 13)) w = true -> Forall space w.
Proof. induction w as [|c w IH]; intros H; cbn [forallb] in H; [constructor|]. apply andb_prop in H. destruct H as [H1 H2]. constructor; [unfold space; lia|auto]. Qed.

Ltac proper_case := cbn [proper proper_elements proper_members]; repeat split;
  first [ apply space_ok; reflexivity | apply plain_string; reflexivity | apply word_ok; [discriminate|reflexivity] | discriminate | idtac ].

(** A key with escapes, a list holding an empty object, a word. *)
Definition nested : json := JTable []
  (MMore [] (s2b "a\u00e9\" ++ [34]) [] [32]
     (JList [] (EMore [] (JWord (s2b "1")) [] (EMore [32] (JTable [] MNone) [32] (EMore [32] (JText (s2b "x")) [] ENone)))) []
  (MMore [32] (s2b "ok") [] [] (JWord (s2b "true")) [] MNone)).
Lemma nested_proper : proper nested.
Proof.
  unfold nested. proper_case.
  apply (st_char 97); [lia|lia|lia|lia|]. apply (st_unicode 48 48 101 57); [unfold hex; lia..|]. apply st_escape; [cbn; tauto|constructor].
Qed.

(** A voucher object followed by other members, lists and objects among them. *)
Definition followed : json := JTable [10]
  (MMore [] (s2b "ietf-voucher:voucher") [] [32]
     (JTable [] (MMore [] (s2b "serial-number") [] [] (JText (s2b "A1")) [] (MMore [32] (s2b "nonce") [32] [] (JText (s2b "AQID")) [] MNone))) []
  (MMore [] (s2b "more") [] [] (JList [] (EMore [] (JTable [] (MMore [] (s2b "nonce") [] [] (JText (s2b "AAAA")) [] MNone)) [] ENone)) [] MNone)).
Lemma followed_proper : proper followed.
Proof. unfold followed. proper_case. Qed.

(** The voucher is taken from a list under another key. *)
Theorem nested_refuted : exists x u, let v := JTable [] (MMore [] (s2b "x") [] [] x [] MNone) in proper v /\ text v = s2b "{""x"":[""ietf"",{""nonce"":""AQID""}]}" /\
  ~ prefix_of_root (s2b "x") /\ deserialize_voucher true (Some (text v)) = Ok (Some u) /\ get_attr_array (Some u) ANonce = Some (ba_of [1; 2; 3]).
Proof.
  exists (JList [] (EMore [] (JText (s2b "ietf")) [] (EMore [] (JTable [] (MMore [] (s2b "nonce") [] [] (JText (s2b "AQID")) [] MNone)) [] ENone))), (with_nonce init_voucher (ba_of [1; 2; 3])).
  intros v. split; [unfold v; proper_case|]. split; [reflexivity|]. split; [intros [r E]; discriminate E|]. split; [vm_compute; reflexivity|reflexivity].
Qed.

(** Fifteen members of an object. *)
Fixpoint repeated (n : nat) : members := match n with O => MNone | S n => MMore [] (s2b "nonce") [] [] (JText (s2b "AQID")) [] (repeated n) end.
Lemma repeated_leaf : forall n, leaf_members (repeated n) = Some (repeat (s2b "nonce", s2b "AQID") n).
Proof. induction n as [|n IH]; [reflexivity|]. cbn [repeated leaf_members]. rewrite IH. reflexivity. Qed.
Lemma repeated_proper : forall n, proper_members (repeated n).
Proof. induction n as [|n IH]; [exact I|]. cbn [repeated]. proper_case. exact IH. Qed.
Lemma nonce_value : value_ok ANonce (s2b "AQID") (PArr [1; 2; 3]).
Proof. exists [1; 2; 3]. split; [vm_compute; reflexivity|reflexivity]. Qed.
Theorem many_refuted : exists v l pairs kvs, proper v /\ v = JTable [] (MMore [] root_name [] [] (JTable [] l) [] MNone) /\ leaf_members l = Some pairs /\ pairs_mean pairs kvs /\ deserialize_voucher true (Some (text v)) = Ok None.
Proof.
  exists (JTable [] (MMore [] root_name [] [] (JTable [] (repeated 15)) [] MNone)), (repeated 15), (repeat (s2b "nonce", s2b "AQID") 15), (repeat (ANonce, PArr [1; 2; 3]) 15).
  assert (P : proper (JTable [] (MMore [] root_name [] [] (JTable [] (repeated 15)) [] MNone))).
  { exact (conj (Forall_nil _) (conj (Forall_nil _) (conj (plain_string root_name eq_refl) (conj (Forall_nil _) (conj (Forall_nil _) (conj (conj (Forall_nil _) (repeated_proper 15)) (conj (Forall_nil _) I))))))). }
  split; [exact P|]. split; [reflexivity|]. split; [apply repeated_leaf|]. split.
  - generalize 15%nat. induction n as [|n IH]; cbn [repeat]; constructor; [|exact IH]. cbn [fst snd]. split; [reflexivity|]. split; [cbn; tauto|exact nonce_value].
  - pose proof (doc_full _ [] [] P (Forall_nil _) (Forall_nil _)) as D. cbn [app] in D. rewrite app_nil_r in D. apply D. vm_compute. repeat constructor.
Qed.
