(** Model of the memory and string helpers of src/utils/os.c. A [char *] is
    given by the readable bytes starting at it. *)
From Verif Require Import Base MBase64 MSerialize.
Open Scope N_scope.
Open Scope ub_scope.

(** The first [n] bytes at a pointer. *)
Definition take_mem (mem : bytes) (n : N) : outcome bytes :=
  if n <=? blen mem then Ok (firstn (N.to_nat n) mem) else UB OOBRead.

(** [mem[i] = v] with bounds check. *)
Definition write_at (mem : bytes) (i : N) (v : N) : outcome bytes :=
  if i <? blen mem then Ok (set_nth mem (N.to_nat i) v) else UB OOBWrite.

(** C library [strlen]. *)
Fixpoint strlen (mem : bytes) : outcome N :=
  match mem with
  | [] => UB OOBRead
  | c :: r => if c =? 0 then Ok 0 else do n <- strlen r; Ok (n + 1)
  end.

(** os.c 32-37 [sys_realloc_array]: the size passed to realloc, [None] when
    NULL is returned without calling it. *)
Definition sys_realloc_array (nmemb size : N) : option N :=
  if negb (size =? 0) && (SIZE_MAX / size <? nmemb) then None
  else Some (szmul nmemb size).

(** os.c 39-53 [sys_memdup]; [mok]: malloc succeeds (malloc(0) gives a block). *)
Definition sys_memdup (mok : bool) (src : option bytes) (len : N)
  : outcome (option bytes) :=
  match src with
  | None => Ok None
  | Some mem =>
    if negb mok then Ok None
    else do d <- take_mem mem len; Ok (Some d)
  end.

(** C library [strncpy] into a buffer: copy up to the NUL, then pad with NUL. *)
Fixpoint strncpy (n : nat) (dest src : bytes) : outcome bytes :=
  match n with
  | O => Ok dest
  | S n' =>
    match src, dest with
    | [], _ => UB OOBRead
    | _, [] => UB OOBWrite
    | c :: r, _ :: d =>
      if c =? 0 then
        (* pad: the remaining n' bytes become NUL *)
        if N.of_nat n' <=? blen d
        then Ok (0 :: repeat 0 n' ++ skipn n' d) else UB OOBWrite
      else do d' <- strncpy n' d r; Ok (c :: d')
    end
  end.

(** os.c 55-68 [sys_strndup]: the block obtained. [length + 1] is a size_t. *)
Definition sys_strndup (mok : bool) (s : option bytes) (length : N)
  : outcome (option bytes) :=
  match s with
  | None => Ok None
  | Some mem =>
    if negb mok then Ok None
    else
      let dest := repeat 0 (N.to_nat (szadd length 1)) in
      do d <- strncpy (N.to_nat length) dest mem; Ok (Some d)
  end.

(** os.c 70 [sys_strdup]. A NULL argument reaches strlen. *)
Definition sys_strdup (mok : bool) (s : option bytes) : outcome (option bytes) :=
  match s with
  | None => UB NullDeref
  | Some mem => do n <- strlen mem; sys_strndup mok s n
  end.

(** C library [memccpy(dest, src, 0, n)]: new content of [dest], whether the
    NUL was copied, and how many bytes were copied. *)
Fixpoint memccpy0 (n : nat) (dest src : bytes) : outcome (bytes * bool * N) :=
  match n with
  | O => Ok (dest, false, 0)
  | S n' =>
    match src, dest with
    | [], _ => UB OOBRead
    | _, [] => UB OOBWrite
    | c :: r, _ :: d =>
      if c =? 0 then Ok (0 :: d, true, 1)
      else do x <- memccpy0 n' d r;
           let '(d', f, k) := x in Ok (c :: d', f, k + 1)
    end
  end.

(** os.c 72-84 [sys_strlcpy]: new content of the destination and the result.
    [dest[siz - 1]] with siz = 0 wraps around. *)
Definition sys_strlcpy (dest src : bytes) (siz : N) : outcome (bytes * N) :=
  do x <- memccpy0 (N.to_nat siz) dest src;
  let '(d, found, k) := x in
  if found then Ok (d, k - 1)
  else
    do d <- write_at d ((siz + SIZE_MAX) mod size_mod) 0;
    do n <- strlen src;
    Ok (d, n).

(** os.c 86-93 [sys_strnlen_s]: memchr for NUL in at most [max_len] bytes. *)
Fixpoint memchr0 (mem : bytes) (n : nat) (i : N) {struct n} : outcome (option N) :=
  match n with
  | O => Ok None
  | S n' =>
    match mem with
    | [] => UB OOBRead
    | c :: r => if c =? 0 then Ok (Some i) else memchr0 r n' (i + 1)
    end
  end.
Definition sys_strnlen_s (mem : bytes) (max_len : N) : outcome N :=
  do e <- memchr0 mem (N.to_nat max_len) 0;
  match e with None => Ok max_len | Some i => Ok i end.
