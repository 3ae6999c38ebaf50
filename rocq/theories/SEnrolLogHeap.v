(** What the recording of an enrolment is expected to do with memory. *)
From Verif Require Import Base MOs MHeap MArray MHandlers MEnrolLog SHeap SArray.
Open Scope N_scope.

(** The names are where the registrar's constants are. *)
Definition names_at (base : N) (nn : bytes -> N) (h : heap) : Prop := forall n, In n NNAMES -> nn n < base /\ hp_cell h (nn n) = Live (Buf (n ++ [0])).
(** Texts shorter than the address space. *)
Definition short_text (s : bytes) : Prop := blen (c_string s) < SIZE_MAX.
Definition short_entries (entry : bytes -> option (option bytes)) : Prop := forall n s, In n NNAMES -> entry n = Some (Some s) -> short_text s.
Definition short_view (v : cert_view) : Prop := short_entries (cv_issuer_entry v) /\ short_entries (cv_subject_entry v).
