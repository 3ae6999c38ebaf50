(** Model of the base64 functions of src/voucher/serialize.c. *)
From Verif Require Import Base.
Open Scope N_scope.
Open Scope ub_scope.

(** serialize.c 18-19: [base64_table[65]], including the terminating NUL. *)
Definition base64_table : bytes :=
  s2b "ABCDEFGHIJKLMNOPQRSTUVWXYZabcdefghijklmnopqrstuvwxyz0123456789+/" ++ [0].

(** Array read with bounds check ([table[i]], [dtable[v]]). *)
Definition rd (t : bytes) (i : N) : outcome N :=
  match nth_error t (N.to_nat i) with
  | Some v => Ok v
  | None => UB OOBRead
  end.

(** [*pos++ = b] into a buffer of [cap] bytes. [acc] is the reversed list of
    the bytes written so far, so [pos = out + length acc]. *)
Definition put (cap : N) (acc : bytes) (b : N) : outcome bytes :=
  if blen acc <? cap then Ok (b :: acc) else UB OOBWrite.

Definition put_tab (cap : N) (table : bytes) (acc : bytes) (i : N)
  : outcome bytes :=
  do c <- rd table i; put cap acc c.

(** serialize.c 118-134: the size of the output buffer, in [size_t]
    arithmetic; [None] stands for the two "return NULL" exits. *)
Definition encode_olen (len : N) (add_pad : bool) : option N :=
  if SIZE_MAX / 4 <=? len then None
  else
    let olen := szadd (szmul len 4 / 3) 4 in
    let olen := if add_pad then szadd olen (olen / 72) else olen in
    let olen := szadd olen 1 in
    if olen <? len then None else Some olen.

(** serialize.c 153-167: the remaining one or two bytes. *)
Definition encode_tail (cap : N) (table : bytes) (add_pad : bool)
           (acc : bytes) (src : bytes) : outcome bytes :=
  match src with
  | [] => Ok acc
  | [a] =>
    do acc <- put_tab cap table acc (N.land (N.shiftr a 2) 63);
    do acc <- put_tab cap table acc
                 (N.land (N.shiftl (N.land a 3) 4) 63);
    do acc <- (if add_pad then put cap acc 61 else Ok acc);
    if add_pad then put cap acc 61 else Ok acc
  | a :: b :: _ =>
    do acc <- put_tab cap table acc (N.land (N.shiftr a 2) 63);
    do acc <- put_tab cap table acc
       (N.land (N.lor (N.shiftl (N.land a 3) 4) (N.shiftr b 4)) 63);
    do acc <- put_tab cap table acc
       (N.land (N.shiftl (N.land b 15) 2) 63);
    if add_pad then put cap acc 61 else Ok acc
  end.

(** serialize.c 145-167: the loop over 3-byte groups, then the tail. *)
Fixpoint encode_loop (cap : N) (table : bytes) (add_pad : bool)
         (acc : bytes) (src : bytes) : outcome bytes :=
  match src with
  | a :: b :: c :: rest =>
    do acc <- put_tab cap table acc (N.land (N.shiftr a 2) 63);
    do acc <- put_tab cap table acc
       (N.land (N.lor (N.shiftl (N.land a 3) 4) (N.shiftr b 4)) 63);
    do acc <- put_tab cap table acc
       (N.land (N.lor (N.shiftl (N.land b 15) 2) (N.shiftr c 6)) 63);
    do acc <- put_tab cap table acc (N.land c 63);
    encode_loop cap table add_pad acc rest
  | tail => encode_tail cap table add_pad acc tail
  end.

(** serialize.c 111-174 [base64_gen_encode]. [mok] says whether the allocation
    succeeds. The result is the returned buffer's written prefix (with the NUL)
    and [*out_len], or [None] for NULL. *)
Definition base64_gen_encode (mok : bool) (src : bytes) (table : bytes)
           (add_pad : bool) : outcome (option (bytes * N)) :=
  match encode_olen (blen src) add_pad with
  | None => Ok None
  | Some olen =>
    if negb mok then Ok None
    else
      do acc <- encode_loop olen table add_pad [] src;
      do fin <- put olen acc 0;
      Ok (Some (rev fin, blen acc))
  end.

(** Conversion of a [size_t] to [ssize_t] (two's complement). *)
Definition to_ssize (n : N) : Z :=
  let m := Z.of_N (n mod size_mod) in
  if (m <? 9223372036854775808)%Z then m
  else (m - 18446744073709551616)%Z.

(** What the caller's [uint8_t **out] holds after a call. [PFreed] is a pointer
    to a released block, [PBuf cap data] a live block of [cap] bytes of which
    the prefix [data] is initialised. *)
Inductive outptr :=
| PNull
| PFreed
| PBuf (cap : N) (data : bytes).

(** serialize.c 255-268 [serialize_array2base64str]. *)
Definition serialize_array2base64str (mok : bool) (src : bytes)
  : outcome (Z * outptr) :=
  do r <- base64_gen_encode mok src base64_table true;
  match r with
  | None => Ok ((-1)%Z, PNull)
  | Some (buf, n) => Ok (to_ssize n, PBuf (blen buf) buf)
  end.

(** [dtable[i] = v] on a 256-byte local array. *)
Fixpoint set_nth (l : bytes) (i : nat) (v : N) : bytes :=
  match l, i with
  | [], _ => []
  | _ :: r, O => v :: r
  | x :: r, S j => x :: set_nth r j v
  end.

(** serialize.c 185-189: the inverse table. The loop variable runs over the
    first 64 table entries. *)
Fixpoint fill_dtable (d : bytes) (tab : bytes) (i : N) : bytes :=
  match tab with
  | [] => d
  | t :: r => fill_dtable (set_nth d (N.to_nat t) i) r (i + 1)
  end.

Definition make_dtable (table : bytes) : bytes :=
  set_nth (fill_dtable (repeat 128 256) (firstn 64 table) 0) 61 0.

(** serialize.c 191-196: number of bytes with a table entry. *)
Fixpoint count_valid (dtable : bytes) (src : bytes) : outcome N :=
  match src with
  | [] => Ok 0
  | b :: r =>
    do t <- rd dtable b;
    do n <- count_valid dtable r;
    Ok (if t =? 128 then n else n + 1)
  end.

(** serialize.c 198-204. *)
Definition extra_pad (count : N) : N := (4 - count mod 4) mod 4.
Definition decode_olen (count : N) : N := (count + extra_pad count) / 4 * 3.

(** Result of the decoding loop: bytes written (reversed) or the "Invalid
    padding" exit, which has released the buffer. *)
Inductive dloop := DDone (acc : bytes) | DBadPad.

(** serialize.c 211-250: the loop over the input followed by [extra_pad] '='
    characters. [blk] holds block[0..count-1]; [pad] is the int counter. The
    stores truncate to 8 bits. *)
Fixpoint decode_loop (cap : N) (dtable : bytes) (acc : bytes) (blk : bytes)
         (pad : N) (src : bytes) : outcome dloop :=
  match src with
  | [] => Ok (DDone acc)
  | val :: rest =>
    do tmp <- rd dtable val;
    if tmp =? 128 then decode_loop cap dtable acc blk pad rest
    else
      let pad := if val =? 61 then pad + 1 else pad in
      match blk with
      | [b0; b1; b2] =>
        do acc <- put cap acc
           (N.lor (N.shiftl b0 2) (N.shiftr b1 4) mod 256);
        do acc <- put cap acc
           (N.lor (N.shiftl b1 4) (N.shiftr b2 2) mod 256);
        do acc <- put cap acc (N.lor (N.shiftl b2 6) tmp mod 256);
        if pad =? 0 then decode_loop cap dtable acc [] pad rest
        else if pad =? 1 then Ok (DDone (tl acc))
        else if pad =? 2 then Ok (DDone (tl (tl acc)))
        else Ok DBadPad
      | _ => decode_loop cap dtable acc (blk ++ [tmp]) pad rest
      end
  end.

(** serialize.c 176-253 [base64_gen_decode]; [mok] says whether the allocation
    succeeds. Returns the [ssize_t] and the final value of [*out]. *)
Definition base64_gen_decode (mok : bool) (src : bytes) (table : bytes)
  : outcome (Z * outptr) :=
  let dtable := make_dtable table in
  do count <- count_valid dtable src;
  if count =? 0 then Ok ((-1)%Z, PNull)
  else
    let olen := decode_olen count in
    if negb mok then Ok ((-1)%Z, PNull)
    else
      do r <- decode_loop olen dtable [] [] 0
                (src ++ repeat 61 (N.to_nat (extra_pad count)));
      match r with
      | DDone acc => Ok (Z.of_N (blen acc), PBuf olen (rev acc))
      | DBadPad => Ok ((-1)%Z, PFreed)
      end.

(** serialize.c 270-279 [serialize_base64str2array]. *)
Definition serialize_base64str2array (mok : bool) (src : bytes)
  : outcome (Z * outptr) :=
  do r <- base64_gen_decode mok src base64_table;
  let (out_len, out) := r in
  if (out_len <? 0)%Z then Ok ((-1)%Z, out) else Ok (out_len, out).
