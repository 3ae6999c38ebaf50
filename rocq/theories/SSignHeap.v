(** Specification vocabulary for the memory of the command sign-cert. *)
From Verif Require Import Base MOs MHeap MVoucher MCrypto MHandlers MLog MSignCert SHeap SArray SBase64 SRequest SHandlers SPledge SLog SSignCert.
Open Scope N_scope.

(** The program's constant texts are where [nn] says. *)
Definition subject_texts : list bytes := [s2b "C"; s2b "IE"; s2b "CN"; s2b "ldevid-cert"; s2b "serialNumber"].
Definition texts_at (nn : bytes -> N) (h : heap) : Prop := forall t, In t subject_texts -> nn t < hp_next h /\ hp_cell h (nn t) = Live (Buf (t ++ [0])).

(** The two arrays of the caller, at [n] and [n + 1], hold the certificate and the
    key, and nothing that was there before changed. *)
Definition arrays_hold (h h' : heap) (cert key : bytes) : Prop :=
  exists bc bk, array_at h' (hp_next h) bc cert /\ array_at h' (hp_next h + 1) bk key /\ bc <> bk /\ kept (hp_next h) h h'.
(** The two arrays are empty and nothing that was there before changed. *)
Definition arrays_empty (h h' : heap) : Prop :=
  hp_cell h' (hp_next h) = Live (Struct [P 0; I 0]) /\ hp_cell h' (hp_next h + 1) = Live (Struct [P 0; I 0]) /\ kept (hp_next h) h h'.
