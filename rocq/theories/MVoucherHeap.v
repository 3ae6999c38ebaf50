(** Model of the memory owned by a voucher: src/voucher/array.c 90-159 and the
    allocating and releasing parts of src/voucher/voucher.c. *)
From Verif Require Import Base MBase64 MSerialize MOs MJsmn MVoucher MHeap.
Open Scope N_scope.
Open Scope ub_scope.

(** voucher_defs.h 20-54 [struct Voucher], the fields that hold pointers:
    serial_number (0) and for each array its pointer and length: idevid_issuer
    (1, 2), pinned_domain_cert (3, 4), nonce (5, 6),
    prior_signed_voucher_request (7, 8), proximity_registrar_cert (9, 10). The
    other fields are plain values and are left out. *)
Definition v_node : block := Struct [P 0; P 0; I 0; P 0; I 0; P 0; I 0; P 0; I 0; P 0; I 0].
Definition arr_field (a : attr) : option nat :=
  match a with
  | AIssuer => Some 1%nat | APinned => Some 3%nat | ANonce => Some 5%nat
  | APrior => Some 7%nat | AProximity => Some 9%nat | _ => None
  end.

(** voucher.c 64-73 [init_voucher]. *)
Definition h_init_voucher (h : heap) : N * heap := alloc h v_node.

(** A [struct BinaryArray *] is the block and the field of its pointer member;
    block 0 is NULL. *)
Definition baptr := (N * nat)%type.

(** array.c 100-119 [copy_binary_array] with a non-NULL [dst]. *)
Definition h_copy_binary_array (h : heap) (dst src : baptr) : outcome (Z * heap) :=
  if fst src =? 0 then Ok ((-1)%Z, h)
  else
    do h <- set_field h (fst dst) (snd dst + 1) (I 0);
    do p <- get_ptr h (fst src) (snd src);
    do n <- get_int h (fst src) (snd src + 1);
    do r <- heap_memdup h p (Z.to_N n);
    let (c, h) := r in
    do h <- set_field h (fst dst) (snd dst) (P c);
    if c =? 0 then Ok ((-1)%Z, h)
    else
      do n <- get_int h (fst src) (snd src + 1);
      do h <- set_field h (fst dst) (snd dst + 1) (I n);
      Ok (0%Z, h).

(** array.c 144-152 [free_binary_array_content]. *)
Definition h_free_binary_array_content (h : heap) (arr : baptr) : outcome heap :=
  if fst arr =? 0 then Ok h
  else
    do p <- get_ptr h (fst arr) (snd arr);
    do h <- (if p =? 0 then Ok h
             else do h <- sys_free h p; set_field h (fst arr) (snd arr) (P 0));
    set_field h (fst arr) (snd arr + 1) (I 0).

(** voucher.c 35-45 [is_attr_array_nonempty]. *)
Definition h_is_attr_array_nonempty (h : heap) (value : baptr) : outcome bool :=
  if fst value =? 0 then Ok false
  else
    do p <- get_ptr h (fst value) (snd value);
    do n <- get_int h (fst value) (snd value + 1);
    Ok (negb ((p =? 0) && (n =? 0)%Z)).

(** voucher.c 218-267 [set_attr_array_voucher]. *)
Definition h_set_attr_array (h : heap) (v : N) (a : attr) (value : baptr) : outcome (Z * heap) :=
  if v =? 0 then Ok ((-1)%Z, h)
  else
    do e <- h_is_attr_array_nonempty h value;
    if negb e then Ok ((-1)%Z, h)
    else match arr_field a with
         | Some i => h_copy_binary_array h (v, i) value
         | None => Ok ((-1)%Z, h)
         end.

(** os.c 55-68 [sys_strndup]; [mem] is the memory at the pointer. *)
Definition heap_strndup (h : heap) (mem : option bytes) (len : N) : outcome (N * heap) :=
  match mem with
  | None => Ok (0, h)
  | Some _ =>
    do c <- sys_strndup (negb (hp_oom h (hp_next h))) mem len;
    match c with None => Ok (0, snd (alloc h (Buf []))) | Some c => Ok (alloc h (Buf c)) end
  end.

(** voucher.c 175-195 [set_attr_nstr_voucher] for ATTR_SERIAL_NUMBER. *)
Definition h_set_attr_nstr (h : heap) (v : N) (mem : option bytes) (len : N) : outcome (Z * heap) :=
  if len <? 128 then
    do r <- heap_strndup h mem len;
    let (c, h) := r in
    do h <- set_field h v 0 (P c);
    Ok (if c =? 0 then (-1)%Z else 0%Z, h)
  else Ok ((-1)%Z, h).

(** voucher.c 197-216 [set_attr_str_voucher]. *)
Definition h_set_attr_str (h : heap) (v : N) (a : attr) (value : N) : outcome (Z * heap) :=
  if v =? 0 then Ok ((-1)%Z, h)
  else match a with
       | ASerial =>
         if value =? 0 then Ok ((-1)%Z, h)
         else
           do d <- load_buf h value;
           match d with
           | None => UB NullDeref
           | Some d => do n <- sys_strnlen_s d 128; h_set_attr_nstr h v (Some d) n
           end
       | _ => Ok ((-1)%Z, h)
       end.

(** voucher.c 379-428 [clear_attr_voucher]. *)
Definition h_clear_attr (h : heap) (v : N) (a : attr) : outcome (Z * heap) :=
  if v =? 0 then Ok ((-1)%Z, h)
  else match a with
       | ASerial =>
         do p <- get_ptr h v 0;
         if p =? 0 then Ok (0%Z, h)
         else do h <- sys_free h p; do h <- set_field h v 0 (P 0); Ok (0%Z, h)
       | _ =>
         match arr_field a with
         | Some i => do h <- h_free_binary_array_content h (v, i); Ok (0%Z, h)
         | None => Ok (0%Z, h)
         end
       end.

(** voucher.c 47-62 [free_voucher]. *)
Definition h_free_voucher (h : heap) (v : N) : outcome heap :=
  if v =? 0 then Ok h
  else
    do p <- get_ptr h v 0;
    do h <- (if p =? 0 then Ok h else do h <- sys_free h p; set_field h v 0 (P 0));
    do h <- h_free_binary_array_content h (v, 1%nat);
    do h <- h_free_binary_array_content h (v, 3%nat);
    do h <- h_free_binary_array_content h (v, 5%nat);
    do h <- h_free_binary_array_content h (v, 7%nat);
    do h <- h_free_binary_array_content h (v, 9%nat);
    sys_free h v.

(** What the getters followed by a read give (voucher.c 463-515): the serial
    number, the content of an array. *)
Definition h_get_serial (h : heap) (v : N) : outcome (option bytes) :=
  do p <- get_ptr h v 0;
  if p =? 0 then Ok None else do s <- heap_string h p; Ok (Some s).
Definition h_get_array (h : heap) (v : N) (i : nat) : outcome (option bytes) :=
  do p <- get_ptr h v i;
  do n <- get_int h v (i + 1);
  do d <- load_buf h p;
  match d with
  | None => Ok None
  | Some d => do c <- take_mem d (Z.to_N n); Ok (Some c)
  end.

(** serialize.c [serialize_base64str2array] on the heap: the contents and the
    result are those of MSerialize; a failed decode leaves the address of a
    released block. *)
Definition h_base64str2array (h : heap) (src : bytes) : outcome (Z * N * heap) :=
  do r <- serialize_base64str2array (negb (hp_oom h (hp_next h))) src;
  let (z, out) := r in
  match out with
  | PBuf _ d => let (c, h) := alloc h (Buf d) in Ok (z, c, h)
  | PNull => Ok (z, 0, if hp_oom h (hp_next h) then snd (alloc h (Buf [])) else h)
  | PFreed => let (c, h) := alloc h (Buf []) in do h <- sys_free h c; Ok (z, c, h)
  end.

(** A variable of automatic storage duration whose address is taken. *)
Definition local (h : heap) (b : block) : N * heap :=
  let a := hp_next h in
  (a, mk_heap (a + 1) (fun x => if x =? a then Live b else hp_cell h x) (hp_oom h)).

(** voucher.c 269-289 [set_attr_base64_voucher]. *)
Definition h_set_attr_base64 (h : heap) (v : N) (a : attr) (mem : bytes) (len : N) : outcome (Z * heap) :=
  do src <- take_mem mem len;
  do r <- h_base64str2array h src;
  let '(out_length, p, h) := r in
  if (out_length <? 0)%Z then Ok ((-1)%Z, h)
  else
    let (s, h) := local h (Struct [P p; I out_length]) in
    do r <- h_set_attr_array h v a (s, 0%nat);
    do h <- h_free_binary_array_content (snd r) (s, 0%nat);
    do h <- sys_free h s;
    Ok (if (fst r <? 0)%Z then (-1)%Z else 0%Z, h).

(** The parsing setters of voucher.c 711-796: those that allocate; the others
    only touch plain fields, their result is that of MVoucher. *)
Definition h_set_by_text (h : heap) (v : N) (a : attr) (mem : bytes) (len : N) : outcome (Z * heap) :=
  match a with
  | ASerial => h_set_attr_nstr h v (Some mem) len
  | AIssuer | APinned | ANonce | APrior | AProximity => h_set_attr_base64 h v a mem len
  | _ =>
    do r <- set_by_text (if v =? 0 then None else Some init_voucher) a mem len;
    Ok (fst r, h)
  end.

(** voucher.c 711-796 [set_keyvalue_voucher]. *)
Fixpoint h_set_keyvalue (attrs : list attr) (h : heap) (v : N) (key : bytes) (key_len : N)
         (value : bytes) (value_len : N) : outcome (Z * heap) :=
  match attrs with
  | [] => Ok ((-1)%Z, h)
  | a :: rest =>
    do e <- check_size_str_equal (attr_name a) key key_len;
    if e then
      do r <- h_set_by_text h v a value value_len;
      Ok (if (fst r <? 0)%Z then (-1)%Z else 0%Z, snd r)
    else h_set_keyvalue rest h v key key_len value value_len
  end.

(** voucher.c 829-849. *)
Fixpoint h_read_pairs (json : bytes) (toks : list token) (idx : nat) (n j : nat)
         (h : heap) (v : N) : outcome (bool * heap) :=
  match n with
  | O => Ok (true, h)
  | S n' =>
    match nth_error toks (idx + j * 2 + 1), nth_error toks (idx + (j * 2 + 1) + 1) with
    | Some k, Some x =>
      do key <- tok_mem json k;
      do value <- tok_mem json x;
      do r <- h_set_keyvalue all_attrs h v key (tok_len k) value (tok_len x);
      if (fst r <? 0)%Z then Ok (false, snd r)
      else h_read_pairs json toks idx n' (S j) (snd r) v
    | _, _ => Ok (false, h)
    end
  end.

(** voucher.c 820-863. *)
Fixpoint h_find_root (json : bytes) (toks : list token) (rest : list token) (idx : nat)
         (h : heap) (v : N) : outcome (bool * heap) :=
  match rest with
  | [] => Ok (false, h)
  | t :: rest' =>
    do mem <- tok_mem json t;
    do e <- strncmp_eq root_name mem (N.to_nat (tok_len t));
    if e then
      match nth_error toks (S idx) with
      | Some o =>
        match tk_type o with
        | TObject => h_read_pairs json toks (S idx) (Z.to_nat (tk_size o)) 0 h v
        | _ => Ok (false, h)
        end
      | None => Ok (false, h)
      end
    else h_find_root json toks rest' (S idx) h v
  end.

(** voucher.c 798-873 [deserialize_voucher] for a non-NULL text: the voucher's
    address or NULL. *)
Definition h_deserialize_voucher (h : heap) (js : bytes) : outcome (N * heap) :=
  match jsmn_parse js 32 with
  | inr _ => Ok (0, h)
  | inl toks =>
    match toks with
    | [] => Ok (0, h)
    | t0 :: rest =>
      match tk_type t0 with
      | TObject =>
        let (v, h) := h_init_voucher h in
        do r <- h_find_root js toks rest 1 h v;
        if fst r then Ok (v, snd r)
        else do h <- h_free_voucher (snd r) v; Ok (0, h)
      | _ => Ok (0, h)
      end
    end
  end.
