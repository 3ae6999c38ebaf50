(** Specification vocabulary for concurrent requests to the registrar. *)
From Verif Require Import Base MHeap MHandlers MConcurrent MConcurrentReg SBase64 SHeap SArray SConfig SRequest SHandlers.
Open Scope N_scope.

(** A request consists of bytes, and so do the files and the certificate. *)
Definition reg_request_ok (r : reg_request) : Prop :=
  match r with
  | RVoucher w _ peer body => world_ok w /\ bytes_ok body /\ (forall v, peer = Some v -> view_ok v)
  | REnroll _ _ body => bytes_ok body
  end.

(** The requests the thread pool has begun to serve: which of them takes the next
    step, in any order. *)
Definition interleaving := list nat.
Definition turns (is : interleaving) (i : nat) : nat := count_occ Nat.eq_dec is i.

(** A request that has been answered. *)
Definition answered (p : prog) : Prop := exists status response, p = Ret status response.
