(** Specification vocabulary for concurrent requests. *)
From Verif Require Import Base MHeap MHandlers MConcurrent.
Open Scope N_scope.

(** A plan: which request runs next and for how many steps. *)
Definition plan := list (nat * nat).
Definition steps_of (pl : plan) : list nat := List.concat (map (fun e => repeat (fst e) (snd e)) pl).

(** A serial plan for [n] requests: every request runs once, for as many steps as
    it may take. *)
Definition serial (n : nat) (pl : plan) : Prop :=
  NoDup (map fst pl) /\ Forall (fun e => (fst e < n)%nat /\ (30 <= snd e)%nat) pl.
