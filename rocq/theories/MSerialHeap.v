(** Model of the memory used by the serialisation of a voucher: the allocating
    and releasing parts of src/voucher/serialize.c and of voucher.c 520-688 over
    the block heap. The texts are those of MSerialize and MVoucher. *)
From Verif Require Import Base MOs MBase64 MSerialize MVoucher MHeap MArray MVoucherHeap.
Open Scope N_scope.
Open Scope ub_scope.

(** malloc of exactly the size of a text with its NUL, followed by sprintf. *)
Definition h_new_text (h : heap) (t : bytes) : N * heap := alloc h (Buf (t ++ [0])).

(** serialize.c 386-396: the part of [serialize_escapestr] after the NULL check,
    on the string itself (also used for string literals). *)
Definition h_escape_text (h : heap) (s : bytes) : outcome (N * heap) :=
  do t <- sprintf_chk (blen s + 3) ([34] ++ s ++ [34]);
  Ok (h_new_text h t).

(** serialize.c 380-397 [serialize_escapestr]. *)
Definition h_escapestr (h : heap) (str : N) : outcome (N * heap) :=
  if str =? 0 then Ok (0, h)
  else do s <- heap_string h str; h_escape_text h s.

(** serialize.c 281-290 [serialize_bool2str]. *)
Definition h_bool2str (h : heap) (value : bool) : outcome (N * heap) :=
  do t <- serialize_bool2str value; Ok (h_new_text h t).

(** serialize.c 331-340 [serialize_time2str]. *)
Definition h_time2str (h : heap) (t : tm) : outcome (N * heap) :=
  match serialize_time2str t with
  | None => Ok (0, h)
  | Some s => Ok (h_new_text h s)
  end.

(** voucher.c 520-535 [escape_serialize_time]. *)
Definition h_escape_time (h : heap) (t : tm) : outcome (N * heap) :=
  do r <- h_time2str h t;
  let (s, h) := r in
  if s =? 0 then Ok (0, h)
  else
    do r <- h_escapestr h s;
    let (e, h) := r in
    do h <- sys_free h s;
    Ok (e, h).

(** The BinaryArray behind a pointer to a member of a struct. *)
Definition h_member (h : heap) (arr : baptr) : outcome barray :=
  do p <- get_ptr h (fst arr) (snd arr);
  do n <- get_int h (fst arr) (snd arr + 1);
  do d <- load_buf h p;
  Ok (mk_ba d (Z.to_N n)).

(** serialize.c 255-268 [serialize_array2base64str]: the result and the block. *)
Definition h_base64 (h : heap) (b : barray) : outcome (Z * N * heap) :=
  do src <- (match ba_data b with
             | None => if ba_len b =? 0 then Ok [] else UB NullDeref
             | Some d => take_mem d (ba_len b)
             end);
  do r <- serialize_array2base64str (negb (hp_oom h (hp_next h))) src;
  let (z, out) := r in
  match out with
  | PBuf _ d => let (c, h) := alloc h (Buf d) in Ok (z, c, h)
  | _ => Ok (z, 0, if hp_oom h (hp_next h) then snd (alloc h (Buf [])) else h)
  end.

(** voucher.c 537-551 [escape_serialize_array]. *)
Definition h_escape_array (h : heap) (arr : baptr) : outcome (N * heap) :=
  do b <- h_member h arr;
  do r <- h_base64 h b;
  let '(z, s, h) := r in
  if (z <? 0)%Z then Ok (0, h)
  else
    do r <- h_escapestr h s;
    let (e, h) := r in
    do h <- sys_free h s;
    Ok (e, h).

(** voucher.c 349-377 [is_attr_voucher_nonempty]; [pl] holds the plain fields
    of the voucher, its serial number and arrays are those in memory. *)
Definition h_is_attr_nonempty (h : heap) (v : N) (pl : voucher) (a : attr) : outcome bool :=
  match a with
  | ASerial => do p <- get_ptr h v 0; Ok (negb (p =? 0))
  | _ =>
    match arr_field a with
    | Some i => h_is_attr_array_nonempty h (v, i)
    | None => Ok (is_attr_nonempty pl a)
    end
  end.

(** voucher.c 553-583 [serialize_attr_voucher]. *)
Definition h_serialize_attr (h : heap) (v : N) (pl : voucher) (a : attr) : outcome (N * heap) :=
  match a with
  | ACreatedOn => h_escape_time h (v_created pl)
  | AExpiresOn => h_escape_time h (v_expires pl)
  | ALastRenewal => h_escape_time h (v_renewal pl)
  | AAssertion =>
    do n <- assertion_name (v_assertion pl);
    match n with None => Ok (0, h) | Some n => h_escape_text h n end
  | ASerial => do p <- get_ptr h v 0; h_escapestr h p
  | ARevocation => h_bool2str h (v_revocation pl)
  | _ =>
    match arr_field a with
    | Some i => h_escape_array h (v, i)
    | None => Ok (0, h)
    end
  end.

(** voucher.c 594-624: the loop over the attributes with its failure exits. *)
Fixpoint h_kv_attrs (v : N) (pl : voucher) (attrs : list attr) (h : heap) (kv : N) : outcome (N * heap) :=
  match attrs with
  | [] => Ok (kv, h)
  | a :: rest =>
    do e <- h_is_attr_nonempty h v pl a;
    if negb e then h_kv_attrs v pl rest h kv
    else
      do r <- h_escape_text h (attr_name a);
      let (key, h) := r in
      if key =? 0 then do h <- free_keyvalue_list h kv; Ok (0, h)
      else
        do r <- h_serialize_attr h v pl a;
        let (value, h) := r in
        if value =? 0 then
          do h <- sys_free h key;
          do h <- free_keyvalue_list h kv; Ok (0, h)
        else
          do r <- push_keyvalue_list h kv key value;
          do h <- sys_free (snd r) key;
          do h <- sys_free h value;
          if (fst r <? 0)%Z then do h <- free_keyvalue_list h kv; Ok (0, h)
          else h_kv_attrs v pl rest h kv
  end.

(** voucher.c 585-626 [voucher_to_keyvalue]. *)
Definition h_voucher_to_keyvalue (h : heap) (v : N) (pl : voucher) : outcome (N * heap) :=
  do r <- init_keyvalue_list h;
  let (kv, h) := r in
  if kv =? 0 then Ok (0, h) else h_kv_attrs v pl all_attrs h kv.

(** serialize.c 21-46 [concatenate_keyvalue]. *)
Definition h_concatenate (h : heap) (key value : N) (separator : bool) : outcome (N * heap) :=
  do k <- heap_string h key;
  do v <- heap_string h value;
  do t <- concatenate_keyvalue k v separator;
  Ok (h_new_text h t).

(** realloc to [n] bytes: a new block with the old bytes, the old block is
    released on success. The bytes beyond the old ones are indeterminate; they
    are not zero here, so that a missing NUL is not hidden. *)
Definition h_realloc (h : heap) (p n : N) : outcome (N * heap) :=
  do d <- load_buf h p;
  let old := match d with None => [] | Some d => d end in
  let (q, h) := alloc h (Buf (firstn (N.to_nat n) (old ++ repeat 255 (N.to_nat n)))) in
  if q =? 0 then Ok (0, h) else do h <- sys_free h p; Ok (q, h).

(** strcat(dst, src): the string and its NUL must fit into the block. *)
Definition h_strcat (h : heap) (dst : N) (src : bytes) : outcome heap :=
  do s <- heap_string h dst;
  do d <- load_buf h dst;
  match d with
  | None => UB NullDeref
  | Some d =>
    do t <- strcat_chk (blen d) s src;
    Ok (put h dst (Live (Buf (t ++ [0] ++ skipn (S (List.length t)) d))))
  end.

(** serialize.c 72-95: the loop over the elements; the address of the text
    (NULL after a failure, when everything was released) and its size. *)
Fixpoint h_json_loop (count idx : N) (h : heap) (json length : N) (els : list N) : outcome (N * N * heap) :=
  match els with
  | [] => Ok (json, length, h)
  | el :: rest =>
    do k <- get_ptr h el 0;
    do v <- get_ptr h el 1;
    do r <- h_concatenate h k v (idx <? count - 1);
    let (concat, h) := r in
    if concat =? 0 then do h <- sys_free h json; Ok (0, length, h)
    else
      do c <- heap_string h concat;
      let length := length + blen c in
      do r <- h_realloc h json length;
      let (tmp, h) := r in
      if tmp =? 0 then
        do h <- sys_free h concat;
        do h <- sys_free h json; Ok (0, length, h)
      else
        do h <- h_strcat h tmp c;
        do h <- sys_free h concat;
        h_json_loop count (idx + 1) h tmp length rest
  end.

(** serialize.c 48-109 [serialize_keyvalue2json]. The elements are collected
    before the loop, which does not change the list. sys_realloc_array(p, 1, n)
    is realloc(p, n). *)
Definition h_keyvalue2json (h : heap) (kv : N) : outcome (N * heap) :=
  if kv =? 0 then Ok (0, h)
  else
    do n <- dl_list_len kv_off h kv;
    let count := n mod 4294967296 in
    if count =? 0 then Ok (0, h)
    else
      let (json, h) := alloc h (Buf [0; 0]) in
      if json =? 0 then Ok (0, h)
      else
        do h <- h_strcat h json [123];
        do s <- heap_string h json;
        do els <- dl_list_for_each kv_off h kv;
        do r <- h_json_loop count 0 h json (blen s + 1) els;
        let '(json, length, h) := r in
        if json =? 0 then Ok (0, h)
        else
          do r <- h_realloc h json (length + 1);
          let (tmp, h) := r in
          if tmp =? 0 then do h <- sys_free h json; Ok (0, h)
          else do h <- h_strcat h tmp [125]; Ok (tmp, h).

(** voucher.c 628-645 [serialize_child_voucher]. *)
Definition h_serialize_child (h : heap) (v : N) (pl : voucher) : outcome (N * heap) :=
  do r <- h_voucher_to_keyvalue h v pl;
  let (kv, h) := r in
  if kv =? 0 then Ok (0, h)
  else
    do r <- h_keyvalue2json h kv;
    let (json, h) := r in
    do h <- free_keyvalue_list h kv;
    Ok (json, h).

(** voucher.c 647-688 [serialize_voucher]. The escaped root name is not checked
    for NULL; push_keyvalue_list refuses it. *)
Definition h_serialize_voucher (h : heap) (v : N) (pl : voucher) : outcome (N * heap) :=
  if v =? 0 then Ok (0, h)
  else
    do r <- h_serialize_child h v pl;
    let (child, h) := r in
    if child =? 0 then Ok (0, h)
    else
      do r <- init_keyvalue_list h;
      let (kv, h) := r in
      if kv =? 0 then do h <- sys_free h child; Ok (0, h)
      else
        do r <- h_escape_text h root_name;
        let (key, h) := r in
        do r <- push_keyvalue_list h kv key child;
        do h <- sys_free (snd r) key;
        do h <- sys_free h child;
        if (fst r <? 0)%Z then do h <- free_keyvalue_list h kv; Ok (0, h)
        else
          do r <- h_keyvalue2json h kv;
          let (json, h) := r in
          do h <- free_keyvalue_list h kv;
          Ok (json, h).
