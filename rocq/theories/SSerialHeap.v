(** Specification vocabulary for the memory of the serialisation of a voucher. *)
From Verif Require Import Base MBase64 MSerialize MVoucher MHeap MVoucherHeap SHeap SVoucherHeap.
Open Scope N_scope.

(** An allocation between [h] and [h'] was refused; one after [h] will be. *)
Definition refused (h h' : heap) : Prop := exists a, hp_next h <= a < hp_next h' /\ hp_oom h a = true.
Definition starved (h : heap) : Prop := exists a, hp_next h <= a /\ hp_oom h a = true.

(** The voucher at [v], whose plain fields are those of [pl], has the value [w]. *)
Definition in_memory (h : heap) (v : N) (pl w : voucher) : Prop :=
  v <> 0 /\
  (exists p, get_ptr h v 0 = Ok p /\
     match v_serial w with None => p = 0 | Some s => p <> 0 /\ heap_string h p = Ok s end) /\
  (forall a i b, arr_field a = Some i -> get_attr_array (Some w) a = Some b ->
     exists p, get_ptr h v i = Ok p /\ get_int h v (i + 1) = Ok (Z.of_N (ba_len b)) /\ load_buf h p = Ok (ba_data b)) /\
  v_created w = v_created pl /\ v_expires w = v_expires pl /\ v_renewal w = v_renewal pl /\
  v_assertion w = v_assertion pl /\ v_revocation w = v_revocation pl.

(** The strings involved fit into the address space, the arrays hold bytes. *)
Definition fits (w : voucher) : Prop :=
  (forall s, v_serial w = Some s -> blen s < SIZE_MAX - 2) /\
  (forall a b d, get_attr_array (Some w) a = Some b -> ba_data b = Some d -> bytes_ok d) /\
  (forall t, serialize_voucher (Some w) = Ok (Some t) -> blen t < SIZE_MAX).

(** What is left after a function that returns a new string, or NULL: the
    memory that existed is untouched, nothing but the string is left, and it is
    the expected one; NULL only if there is none or an allocation was refused. *)
Definition new_string (h : heap) (expected : option bytes) (p : N) (h' : heap) : Prop :=
  kept (hp_next h) h h' /\
  ((p = 0 /\ (expected = None \/ refused h h') /\ no_leak (hp_next h) h') \/
   (exists t, expected = Some t /\ p <> 0 /\ hp_cell h' p = Live (Buf (t ++ [0])) /\
      forall a, hp_next h <= a -> (is_live h' a <-> a = p))).

(** The voucher with the plain fields of [pl] and the owned values [f]. *)
Definition value_of (pl : voucher) (f : attrs) : voucher :=
  let arr a := match f a with Some d => ba_of d | None => ba_null end in
  mk_v (v_created pl) (v_expires pl) (v_assertion pl) (f ASerial) (arr AIssuer) (arr APinned) (v_revocation pl) (arr ANonce) (v_renewal pl) (arr APrior) (arr AProximity).
