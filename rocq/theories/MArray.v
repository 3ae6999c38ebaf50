(** Model of src/voucher/array.h, array.c and keyvalue.c on the heap. *)
From Verif Require Import Base MOs MHeap.
Open Scope N_scope.
Open Scope ub_scope.

(** array.h 52-56: [struct dl_list] embedded at field [off]: next, prev, el. *)

(** array.h 58-67 [dl_list_add_tail]. *)
Definition dl_list_add_tail (off : nat) (h : heap) (lst item element : N) : outcome heap :=
  do prev <- get_ptr h lst (off + 1);
  do n <- get_ptr h prev off;
  do h <- set_field h item off (P n);
  do h <- set_field h item (off + 1) (P prev);
  do n <- get_ptr h prev off;
  do h <- set_field h n (off + 1) (P item);
  do h <- set_field h prev off (P item);
  do n <- get_ptr h prev off;
  set_field h n (off + 2) (P element).

(** array.h 69-75 [dl_list_len]; the count is not truncated to [int]. The loop
    visits distinct blocks, so [hp_next] steps suffice if it ends at all. *)
Fixpoint dl_list_len_from (off : nat) (h : heap) (lst : N) (fuel : nat) (item count : N) : outcome N :=
  match fuel with
  | O => UB NoEnd
  | S fuel =>
    if item =? lst then Ok count
    else do n <- get_ptr h item off; dl_list_len_from off h lst fuel n (count + 1)
  end.
Definition dl_list_len (off : nat) (h : heap) (lst : N) : outcome N :=
  do n <- get_ptr h lst off;
  dl_list_len_from off h lst (S (N.to_nat (hp_next h))) n 0.

(** array.h 77-82 [dl_list_init]. *)
Definition dl_list_init (off : nat) (h : heap) (lst element : N) : outcome heap :=
  do h <- set_field h lst off (P lst);
  do h <- set_field h lst (off + 1) (P lst);
  set_field h lst (off + 2) (P element).

(** array.h 84-90 [dl_list_del]. *)
Definition dl_list_del (off : nat) (h : heap) (item : N) : outcome heap :=
  do n <- get_ptr h item off;
  do p <- get_ptr h item (off + 1);
  do h <- set_field h n (off + 1) (P p);
  do p <- get_ptr h item (off + 1);
  do n <- get_ptr h item off;
  do h <- set_field h p off (P n);
  do h <- set_field h item off (P 0);
  set_field h item (off + 1) (P 0).

(** array.h 92-97 [dl_list_empty], [dl_list_entry], [dl_list_first]. *)
Definition dl_list_first (off : nat) (h : heap) (lst : N) : outcome N :=
  do n <- get_ptr h lst off;
  if n =? lst then Ok 0 else get_ptr h n (off + 2).

(** array.h 102-105 [dl_list_for_each]: the items visited. *)
Fixpoint dl_list_for_each_from (off : nat) (h : heap) (lst : N) (fuel : nat) (item : N) : outcome (list N) :=
  match fuel with
  | O => UB NoEnd
  | S fuel =>
    if item =? lst then Ok []
    else
      do n <- get_ptr h item off;
      do e <- get_ptr h n (off + 2);
      do r <- dl_list_for_each_from off h lst fuel e;
      Ok (item :: r)
  end.
Definition dl_list_for_each (off : nat) (h : heap) (lst : N) : outcome (list N) :=
  do n <- get_ptr h lst off;
  do e <- get_ptr h n (off + 2);
  dl_list_for_each_from off h lst (S (N.to_nat (hp_next h))) e.

(** array.c 32-40 [free_array_list_el] ([owned] = field 0) and keyvalue.c 40-51
    [free_keyvalue_list_el] ([owned] = fields 0 and 1). *)
Fixpoint free_fields (h : heap) (el : N) (owned : list nat) : outcome heap :=
  match owned with
  | [] => Ok h
  | i :: r =>
    do p <- get_ptr h el i;
    do h <- (if p =? 0 then Ok h else sys_free h p);
    free_fields h el r
  end.
Definition free_list_el (off : nat) (owned : list nat) (h : heap) (el : N) : outcome heap :=
  if el =? 0 then Ok h
  else
    do h <- free_fields h el owned;
    do h <- dl_list_del off h el;
    sys_free h el.

(** array.c 42-55 [free_array_list], keyvalue.c 53-66 [free_keyvalue_list]. *)
Fixpoint free_list_loop (off : nat) (owned : list nat) (fuel : nat) (h : heap) (lst : N) : outcome heap :=
  match fuel with
  | O => UB NoEnd
  | S fuel =>
    do el <- dl_list_first off h lst;
    if el =? 0 then Ok h
    else do h <- free_list_el off owned h el; free_list_loop off owned fuel h lst
  end.
Definition free_list (off : nat) (owned : list nat) (h : heap) (lst : N) : outcome heap :=
  if lst =? 0 then Ok h
  else
    do h <- free_list_loop off owned (S (N.to_nat (hp_next h))) h lst;
    free_list_el off owned h lst.

(** array.h 113-118 [struct BinaryArrayList]: arr, length, flags, list. *)
Definition arr_off : nat := 3.
Definition arr_owned : list nat := [0%nat].
Definition arr_node : block := Struct [P 0; I 0; I 0; P 0; P 0; P 0].
(** keyvalue.h 27-31 [struct keyvalue_list]: key, value, list. *)
Definition kv_off : nat := 2.
Definition kv_owned : list nat := [0%nat; 1%nat].
Definition kv_node : block := Struct [P 0; P 0; P 0; P 0; P 0].

(** array.c 19-30 [init_array_list], keyvalue.c 27-38 [init_keyvalue_list]. *)
Definition init_list (off : nat) (node : block) (h : heap) : outcome (N * heap) :=
  let (a, h) := alloc h node in
  if a =? 0 then Ok (0, h)
  else do h <- dl_list_init off h a a; Ok (a, h).
Definition init_array_list := init_list arr_off arr_node.
Definition init_keyvalue_list := init_list kv_off kv_node.

Definition free_array_list := free_list arr_off arr_owned.
Definition free_keyvalue_list := free_list kv_off kv_owned.

(** array.c 57-88 [push_array_list]. *)
Definition push_array_list (h : heap) (arr_list arr length : N) (flags : Z) : outcome (Z * heap) :=
  if arr_list =? 0 then Ok ((-1)%Z, h)
  else if arr =? 0 then Ok ((-1)%Z, h)
  else
    let (el, h) := alloc h arr_node in
    if el =? 0 then Ok ((-1)%Z, h)
    else
      do r <- heap_memdup h arr length;
      let (c, h) := r in
      do h <- set_field h el 0 (P c);
      if c =? 0 then
        do h <- free_list_el arr_off arr_owned h el; Ok ((-1)%Z, h)
      else
        do h <- set_field h el 1 (I (Z.of_N length));
        do h <- set_field h el 2 (I flags);
        do h <- dl_list_add_tail arr_off h arr_list el el;
        Ok (0%Z, h).

(** keyvalue.c 68-109 [push_keyvalue_list]. *)
Definition push_keyvalue_list (h : heap) (kv_list key value : N) : outcome (Z * heap) :=
  if kv_list =? 0 then Ok ((-1)%Z, h)
  else if key =? 0 then Ok ((-1)%Z, h)
  else if value =? 0 then Ok ((-1)%Z, h)
  else
    let (el, h) := alloc h kv_node in
    if el =? 0 then Ok ((-1)%Z, h)
    else
      do r <- heap_strdup h key;
      let (k, h) := r in
      do h <- set_field h el 0 (P k);
      if k =? 0 then
        do h <- free_list_el kv_off kv_owned h el; Ok ((-1)%Z, h)
      else
        do r <- heap_strdup h value;
        let (v, h) := r in
        do h <- set_field h el 1 (P v);
        if v =? 0 then
          do h <- free_list_el kv_off kv_owned h el; Ok ((-1)%Z, h)
        else
          do h <- dl_list_add_tail kv_off h kv_list el el;
          Ok (0%Z, h).

(** What a loop over the list reads: contents and flags, keys and values. *)
Definition arr_item (h : heap) (el : N) : outcome (bytes * Z) :=
  do a <- get_ptr h el 0;
  do n <- get_int h el 1;
  do f <- get_int h el 2;
  do d <- load_buf h a;
  match d with
  | None => UB NullDeref
  | Some d => do c <- take_mem d (Z.to_N n); Ok (c, f)
  end.
Definition kv_item (h : heap) (el : N) : outcome (bytes * bytes) :=
  do k <- get_ptr h el 0;
  do v <- get_ptr h el 1;
  do ks <- heap_string h k;
  do vs <- heap_string h v;
  Ok (ks, vs).
Fixpoint each {A} (f : N -> outcome A) (l : list N) : outcome (list A) :=
  match l with
  | [] => Ok []
  | x :: r => do y <- f x; do ys <- each f r; Ok (y :: ys)
  end.
Definition array_items (h : heap) (l : N) : outcome (list (bytes * Z)) :=
  do xs <- dl_list_for_each arr_off h l; each (arr_item h) xs.
Definition keyvalue_items (h : heap) (l : N) : outcome (list (bytes * bytes)) :=
  do xs <- dl_list_for_each kv_off h l; each (kv_item h) xs.
