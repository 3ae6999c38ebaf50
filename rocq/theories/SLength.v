(** Lengths as texts: any digits, leading zeros and numbers of any size included. *)
From Verif Require Import Base.
Open Scope N_scope.

Definition digits_text (t : bytes) : Prop := t <> [] /\ Forall (fun c => 48 <= c <= 57) t.
Definition decimal (t : bytes) : N := fold_left (fun n c => 10 * n + (c - 48)) t 0.
(** The text begins with no digit, white space or sign. *)
Definition no_number (t : bytes) : Prop := match t with c :: _ => 57 < c | [] => True end.
