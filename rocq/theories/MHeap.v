(** A heap of blocks for the code that allocates, links and releases memory.
    Addresses are never reused: an access to a released block is visible as
    such whatever the allocator would do. Address 0 is NULL. *)
From Verif Require Import Base MOs.
Open Scope N_scope.
Open Scope ub_scope.

(** A block is a byte buffer or a struct, given by its fields in order. A
    pointer to a struct embedded in another one (dl_list) is the address of the
    outer struct, the field numbers are shifted. *)
Inductive val := P (a : N) | I (z : Z).
Inductive block := Buf (d : bytes) | Struct (fs : list val).
Inductive cell := Fresh | Live (b : block) | Freed.

(** [hp_oom n]: the allocation attempt that would use address [n] fails. *)
Record heap := mk_heap { hp_next : N; hp_cell : N -> cell; hp_oom : N -> bool }.

Definition put (h : heap) (a : N) (c : cell) : heap :=
  mk_heap (hp_next h) (fun b => if b =? a then c else hp_cell h b) (hp_oom h).

(** malloc, calloc: the address or NULL. *)
Definition alloc (h : heap) (b : block) : N * heap :=
  let a := hp_next h in
  let h1 := mk_heap (a + 1) (hp_cell h) (hp_oom h) in
  if hp_oom h a then (0, h1) else (a, put h1 a (Live b)).

(** free. *)
Definition sys_free (h : heap) (a : N) : outcome heap :=
  if a =? 0 then Ok h
  else match hp_cell h a with
       | Live _ => Ok (put h a Freed)
       | Freed => UB DoubleFree
       | Fresh => UB BadFree
       end.

(** The fields of the struct at [a]. *)
Definition load (h : heap) (a : N) : outcome (list val) :=
  if a =? 0 then UB NullDeref
  else match hp_cell h a with
       | Live (Struct fs) => Ok fs
       | Live (Buf _) => UB OOBRead
       | Freed => UB UseAfterFree
       | Fresh => UB OOBRead
       end.
Definition get_field (h : heap) (a : N) (i : nat) : outcome val :=
  do fs <- load h a;
  match nth_error fs i with Some v => Ok v | None => UB OOBRead end.
Definition get_ptr (h : heap) (a : N) (i : nat) : outcome N :=
  do v <- get_field h a i;
  match v with P p => Ok p | I _ => UB OOBRead end.
Definition get_int (h : heap) (a : N) (i : nat) : outcome Z :=
  do v <- get_field h a i;
  match v with I z => Ok z | P _ => UB OOBRead end.

Fixpoint set_nthv (l : list val) (i : nat) (v : val) : list val :=
  match l, i with
  | [], _ => []
  | _ :: r, O => v :: r
  | x :: r, S j => x :: set_nthv r j v
  end.
Definition set_field (h : heap) (a : N) (i : nat) (v : val) : outcome heap :=
  do fs <- load h a;
  match nth_error fs i with
  | Some _ => Ok (put h a (Live (Struct (set_nthv fs i v))))
  | None => UB OOBWrite
  end.

(** The bytes of the buffer at [a], [None] for NULL. *)
Definition load_buf (h : heap) (a : N) : outcome (option bytes) :=
  if a =? 0 then Ok None
  else match hp_cell h a with
       | Live (Buf d) => Ok (Some d)
       | Live (Struct _) => UB OOBRead
       | Freed => UB UseAfterFree
       | Fresh => UB OOBRead
       end.

(** The C string at [a], without its NUL. *)
Definition heap_string (h : heap) (a : N) : outcome bytes :=
  do d <- load_buf h a;
  match d with
  | None => UB NullDeref
  | Some d => do n <- strlen d; take_mem d n
  end.

(** os.c 39-53 [sys_memdup]. *)
Definition heap_memdup (h : heap) (src : N) (len : N) : outcome (N * heap) :=
  if src =? 0 then Ok (0, h)
  else if hp_oom h (hp_next h) then Ok (alloc h (Buf []))
  else
    do d <- load_buf h src;
    do c <- sys_memdup true d len;
    match c with None => Ok (0, h) | Some c => Ok (alloc h (Buf c)) end.

(** os.c 70 [sys_strdup]. *)
Definition heap_strdup (h : heap) (s : N) : outcome (N * heap) :=
  do d <- load_buf h s;
  do c <- sys_strdup (negb (hp_oom h (hp_next h))) d;
  match c with None => Ok (0, snd (alloc h (Buf []))) | Some c => Ok (alloc h (Buf c)) end.
