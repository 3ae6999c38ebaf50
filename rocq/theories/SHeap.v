(** Specification vocabulary for the heap code. *)
From Verif Require Import Base MHeap.
Open Scope N_scope.

(** Nothing has been allocated at or above the next address, nor at NULL. *)
Definition heap_wf (h : heap) : Prop :=
  0 < hp_next h /\ hp_cell h 0 = Fresh /\ forall a, hp_next h <= a -> hp_cell h a = Fresh.

Definition is_live (h : heap) (a : N) : Prop := exists b, hp_cell h a = Live b.

(** [h'] is [h] after releasing exactly the blocks of [l], each of which was
    live. *)
Definition released (h h' : heap) (l : list N) : Prop :=
  (forall a, In a l -> is_live h a /\ hp_cell h' a = Freed) /\
  (forall a, ~ In a l -> hp_cell h' a = hp_cell h a).

(** Memory below [n] is untouched. *)
Definition kept (n : N) (h h' : heap) : Prop := forall a, a < n -> hp_cell h' a = hp_cell h a.

(** Every block allocated from address [n] on has been released. *)
Definition no_leak (n : N) (h : heap) : Prop := forall a, n <= a -> ~ is_live h a.

(** No allocation fails. *)
Definition plenty (h : heap) : Prop := forall a, hp_oom h a = false.
