(** What a device short of memory may leave of its key and certificate. *)
From Verif Require Import Base MHeap MArray MConfig MHandlers MHandlerHeap MVoucherHeap MSignCert SHeap SArray SSignCert SSignHeap.
Open Scope N_scope.

(** The caller's two empty arrays, at [hp_next h] and [hp_next h + 1]. *)
Definition caller_arrays (h : heap) : heap := snd (local (snd (local h (Struct [P 0; I 0]))) (Struct [P 0; I 0])).

(** Making the certificate takes eleven allocations for the two lists, counted from
    the local array with the serial number: the issuer, the subject, and for each of
    the three entries a node and the copies of its two texts. The [i]th is the first
    one refused. *)
Definition first_refused (h : heap) (i : N) : Prop :=
  hp_oom h (hp_next h + 2 + i) = true /\ forall j, 1 <= j -> j < i -> hp_oom h (hp_next h + 2 + j) = false.
Definition node_allocs : list N := [1; 2; 3; 6; 9].
Definition text_allocs : list N := [4; 5; 7; 8; 10; 11].
Definition lists_fit (h : heap) : Prop := forall j, 1 <= j -> j <= 11 -> hp_oom h (hp_next h + 2 + j) = false.

(** The key and the certificate there was memory for: one more allocation each. *)
Definition key_kept (dv : device) (h : heap) : option bytes := if hp_oom h (hp_next h + 14) then None else dv_key dv.
Definition cert_kept (dv : device) (r : bytes) (h : heap) : option bytes :=
  match key_kept dv h with
  | None => None
  | Some k => if hp_oom h (hp_next h + 15) then None else dv_cert dv (meta_of dv r) k
  end.

(** The array at [p] holds [d] in the block [b], or nothing and the length that -1
    becomes. *)
Definition slot_holds (h : heap) (p : N) (d : option bytes) (b : N) : Prop :=
  match d with
  | Some d => array_at h p b d
  | None => b = 0 /\ hp_cell h p = Live (Struct [P 0; I 18446744073709551615])
  end.
(** Both arrays do, not in the same block, nothing that was there before changed, and nothing else is left. *)
Definition both_slots (h h' : heap) (cert key : option bytes) : Prop :=
  exists bc bk, slot_holds h' (hp_next h) cert bc /\ slot_holds h' (hp_next h + 1) key bk /\ (bc = bk -> bc = 0) /\ kept (hp_next h) h h' /\
    forall a, hp_next h <= a -> is_live h' a -> a = hp_next h \/ a = hp_next h + 1 \/ a = bc \/ a = bk.
