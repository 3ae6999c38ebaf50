(** When two texts are the same up to case, stated by the letters alone. *)
From Verif Require Import Base.
Open Scope N_scope.

Definition capitals : bytes := s2b "ABCDEFGHIJKLMNOPQRSTUVWXYZ".
Definition smalls : bytes := s2b "abcdefghijklmnopqrstuvwxyz".
(** The same character, or the two forms of a letter. *)
Definition same_letter (a b : N) : Prop := a = b \/ In (a, b) (combine capitals smalls) \/ In (b, a) (combine capitals smalls).
Definition same_text (a b : bytes) : Prop := Forall2 same_letter a b.
