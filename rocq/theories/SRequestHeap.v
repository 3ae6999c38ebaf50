(** Specification vocabulary for the memory of the functions of request.c. *)
From Verif Require Import Base MBase64 MSerialize MVoucher SJson MCrypto SRequest MHeap MArray MVoucherHeap MConfig MHandlers SHeap SArray SVoucherHeap SSerialHeap.
Open Scope N_scope.

(** A [struct BinaryArray *] argument: NULL, or a struct whose fields are a
    pointer and a length, the pointer NULL with length 0 or to a buffer of at
    least that length. *)
Definition array_at (h : heap) (b : baptr) (x : option barray) : Prop :=
  match x with
  | None => fst b = 0
  | Some y =>
    fst b <> 0 /\ exists fs p, hp_cell h (fst b) = Live (Struct fs) /\ nth_error fs (snd b) = Some (P p) /\
      nth_error fs (snd b + 1) = Some (I (Z.of_N (ba_len y))) /\
      match ba_data y with
      | None => p = 0 /\ ba_len y = 0
      | Some d => p <> 0 /\ hp_cell h p = Live (Buf d) /\ ba_len y <= blen d
      end
  end.

(** A string argument: NULL, or a buffer with a NUL. *)
Definition string_at (h : heap) (p : N) (s : option bytes) : Prop :=
  match s with
  | None => p = 0
  | Some t => p <> 0 /\ cstr_ok t /\ exists d, hp_cell h p = Live (Buf d) /\ In 0 d /\ c_string d = t
  end.

(** What is left after a function that returns a new [struct BinaryArray *], or
    NULL: the memory that existed is untouched, nothing but the struct and its
    buffer is left, and its content is the expected one; NULL only if there is
    none or an allocation was refused. *)
Definition new_array (h : heap) (expected : option bytes) (p : N) (h' : heap) : Prop :=
  kept (hp_next h) h h' /\
  ((p = 0 /\ (expected = None \/ refused h h') /\ no_leak (hp_next h) h') \/
   (exists d b, expected = Some d /\ p <> 0 /\ hp_cell h' p = Live (Struct [P b; I (Z.of_N (blen d))]) /\
      ((d = [] /\ b = 0) \/ (b <> 0 /\ b <> p /\ hp_cell h' b = Live (Buf d))) /\
      forall a, hp_next h <= a -> (is_live h' a <-> a = p \/ (a = b /\ b <> 0)))).

(** The same, possibly with more left. *)
Definition some_array (h : heap) (expected : option bytes) (p : N) (h' : heap) : Prop :=
  kept (hp_next h) h h' /\
  ((p = 0 /\ (expected = None \/ refused h h')) \/
   (exists d b, expected = Some d /\ p <> 0 /\ hp_cell h' p = Live (Struct [P b; I (Z.of_N (blen d))]) /\
      ((d = [] /\ b = 0) \/ (b <> 0 /\ b <> p /\ hp_cell h' b = Live (Buf d))))).

(** The text of a voucher with these attributes fits into the address space. *)
Definition text_fits (kvs : list (attr * pval)) : Prop :=
  forall v text, holds_exactly v kvs -> serialize_voucher (Some v) = Ok (Some text) -> blen text < SIZE_MAX.

(** No signed content of [cms] gives a member that is held in memory twice. *)
Definition clean_content (o : ossl) (cms : option barray) (certs store : option certlist) : Prop :=
  forall x c st json, cms = Some x -> verified o x certs store c st json -> single json.

(** The same for a registrar's request and the pledge's request inside it. *)
Definition clean_request (o : ossl) (cms : option barray) (rcerts rstore pcerts pstore : option certlist) : Prop :=
  clean_content o cms rcerts rstore /\
  forall x vr regs prior, cms = Some x -> says o x rcerts rstore true vr regs -> get_attr_array (Some vr) APrior = Some prior -> clean_content o (Some prior) pcerts pstore.

(** A signed content that is verified is a voucher. *)
Definition voucher_or_nothing (o : ossl) (cms : option barray) (certs store : option certlist) (want : bool) : Prop :=
  forall x, cms = Some x -> (forall c st json, ~ verified o x certs store c st json) \/ exists v l, says o x certs store want v l.

(** A voucher that the pledge may follow, and the certificate it pins. *)
Definition acceptable (o : ossl) (cms : option barray) (serial : option bytes) (nonce rtls : option barray) (dstore vcerts vstore : option certlist) (want : bool)
           (d : bytes) (l : option certlist) : Prop :=
  exists x mv s, cms = Some x /\ serial = Some s /\ says o x vcerts vstore want mv l /\ get_attr_str (Some mv) ASerial = Some (Some s) /\
    (forall n, nonce = Some n -> exists m, nonce_is mv (Some m) /\ holds_bytes n m) /\
    get_attr_array (Some mv) APinned = Some (ba_of d) /\ chains o rtls d dstore.

(** What is left after the pledge's check of a voucher: of the memory that
    existed only the caller's struct may have changed. On success it holds a
    new buffer with the pinned certificate, and the list of the signers, if
    wanted, can be read. *)
Definition some_pinned (h : heap) (pin : N) (good : bytes -> option certlist -> Prop) (rc : Z) (l : N) (h' : heap) : Prop :=
  (forall a, a < hp_next h -> a <> pin -> hp_cell h' a = hp_cell h a) /\
  ((rc = 0%Z /\ exists d lst b, good d lst /\ pin <> 0 /\ hp_cell h' pin = Live (Struct [P b; I (Z.of_N (blen d))]) /\ hp_next h <= b /\ hp_cell h' b = Live (Buf d) /\ h_certlist h' l = Ok lst) \/
   (rc = (-1)%Z /\ ((forall d lst, ~ good d lst) \/ pin = 0 \/ refused h h') /\ (hp_cell h' pin = hp_cell h pin \/ (refused h h' /\ hp_cell h' pin = Live (Struct [P 0; I 0]))))).
(** The same, and nothing else is left when the list of the signers is released. *)
Definition new_pinned (h : heap) (pin : N) (good : bytes -> option certlist -> Prop) (rc : Z) (l : N) (h' : heap) : Prop :=
  (forall a, a < hp_next h -> a <> pin -> hp_cell h' a = hp_cell h a) /\
  ((rc = 0%Z /\ exists d lst b h2, good d lst /\ pin <> 0 /\ hp_cell h' pin = Live (Struct [P b; I (Z.of_N (blen d))]) /\ hp_next h <= b /\ hp_cell h' b = Live (Buf d) /\ h_certlist h' l = Ok lst /\
      free_array_list h' l = Ok h2 /\ (forall a, hp_next h <= a -> (is_live h2 a <-> a = b))) \/
   (rc = (-1)%Z /\ ((forall d lst, ~ good d lst) \/ pin = 0 \/ refused h h') /\ (hp_cell h' pin = hp_cell h pin \/ (refused h h' /\ hp_cell h' pin = Live (Struct [P 0; I 0]))) /\ no_leak (hp_next h) h')).
