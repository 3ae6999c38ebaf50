(** Model of src/voucher/voucher.c (attribute access, JSON) and of the value
    semantics of src/voucher/array.c. Ownership, aliasing and leaks are the
    subject of MVoucherHeap.v. *)
From Verif Require Import Base MBase64 MSerialize MOs MJsmn.
Open Scope N_scope.
Open Scope ub_scope.

(** ** Binary arrays *)

(** array.h [struct BinaryArray]: the readable memory at [array] ([None] for
    NULL) and [length]. *)
Record barray := mk_ba { ba_data : option bytes; ba_len : N }.
Definition ba_null : barray := mk_ba None 0.
Definition ba_of (d : bytes) : barray := mk_ba (Some d) (blen d).

(** array.c 100-119 [copy_binary_array] with a non-NULL [dst]: the return code
    and the new [*dst]. [mok]: the allocation succeeds. *)
Definition copy_binary_array (mok : bool) (dst : barray) (src : option barray)
  : outcome (Z * barray) :=
  match src with
  | None => Ok ((-1)%Z, dst)
  | Some s =>
    do d <- sys_memdup mok (ba_data s) (ba_len s);
    match d with
    | None => Ok ((-1)%Z, mk_ba None 0)
    | Some d => Ok (0%Z, mk_ba (Some d) (ba_len s))
    end
  end.

(** memcmp(a, b, n) == 0. With n = 0 nothing is read. *)
Definition memcmp_eq (a b : option bytes) (n : N) : outcome bool :=
  if n =? 0 then Ok true
  else
    match a, b with
    | Some a, Some b =>
      do x <- take_mem a n; do y <- take_mem b n; Ok (beqb x y)
    | _, _ => UB NullDeref
    end.

(** array.c 121-142 [compare_binary_array]. *)
Definition compare_binary_array (src dst : option barray) : outcome Z :=
  match src, dst with
  | None, _ => Ok (-1)%Z
  | _, None => Ok (-1)%Z
  | Some s, Some d =>
    if negb (ba_len d =? ba_len s) then Ok 0%Z
    else
      do e <- memcmp_eq (ba_data d) (ba_data s) (ba_len s);
      Ok (if e then 1%Z else 0%Z)
  end.

(** ** The voucher structure *)

(** voucher.h [enum VoucherAttributes]; [ABad] stands for any other number. *)
Inductive attr :=
| ACreatedOn | AExpiresOn | AAssertion | ASerial | AIssuer | APinned
| ARevocation | ANonce | ALastRenewal | APrior | AProximity
| ABad (n : Z).

(** The attributes in enum order, ATTR_CREATED_ON .. ATTR_PROXIMITY_REGISTRAR_CERT. *)
Definition all_attrs : list attr :=
  [ACreatedOn; AExpiresOn; AAssertion; ASerial; AIssuer; APinned; ARevocation;
   ANonce; ALastRenewal; APrior; AProximity].

(** voucher_defs.h 60-66 [VOUCHER_ATTRIBUTE_NAMES]. *)
Definition attr_name (a : attr) : bytes :=
  match a with
  | ACreatedOn => s2b "created-on"
  | AExpiresOn => s2b "expires-on"
  | AAssertion => s2b "assertion"
  | ASerial => s2b "serial-number"
  | AIssuer => s2b "idevid-issuer"
  | APinned => s2b "pinned-domain-cert"
  | ARevocation => s2b "domain-cert-revocation-checks"
  | ANonce => s2b "nonce"
  | ALastRenewal => s2b "last-renewal-date"
  | APrior => s2b "prior-signed-voucher-request"
  | AProximity => s2b "proximity-registrar-cert"
  | ABad _ => []
  end.

(** voucher_defs.h 57 [VOUCHER_ROOT_NAME]. *)
Definition root_name : bytes := s2b "ietf-voucher:voucher".

(** voucher_defs.h 68-69 [VOUCHER_ASSERTION_NAMES]; entry 0 is NULL, a larger
    index is outside the array. *)
Definition assertion_name (i : Z) : outcome (option bytes) :=
  match i with
  | 0%Z => Ok None
  | 1%Z => Ok (Some (s2b "verified"))
  | 2%Z => Ok (Some (s2b "logged"))
  | 3%Z => Ok (Some (s2b "proximity"))
  | _ => UB OOBRead
  end.

(** voucher_defs.h 20-54 [struct Voucher]. The serial number is the content of
    the C string. *)
Record voucher := mk_v {
  v_created : tm; v_expires : tm; v_assertion : Z; v_serial : option bytes;
  v_issuer : barray; v_pinned : barray; v_revocation : bool; v_nonce : barray;
  v_renewal : tm; v_prior : barray; v_proximity : barray }.

(** voucher.c 64-73 [init_voucher] when the allocation succeeds. *)
Definition init_voucher : voucher :=
  mk_v tm_zero tm_zero 0 None ba_null ba_null false ba_null tm_zero ba_null ba_null.

(** Field updates. *)
Definition with_created v x := mk_v x (v_expires v) (v_assertion v) (v_serial v) (v_issuer v) (v_pinned v) (v_revocation v) (v_nonce v) (v_renewal v) (v_prior v) (v_proximity v).
Definition with_expires v x := mk_v (v_created v) x (v_assertion v) (v_serial v) (v_issuer v) (v_pinned v) (v_revocation v) (v_nonce v) (v_renewal v) (v_prior v) (v_proximity v).
Definition with_assertion v x := mk_v (v_created v) (v_expires v) x (v_serial v) (v_issuer v) (v_pinned v) (v_revocation v) (v_nonce v) (v_renewal v) (v_prior v) (v_proximity v).
Definition with_serial v x := mk_v (v_created v) (v_expires v) (v_assertion v) x (v_issuer v) (v_pinned v) (v_revocation v) (v_nonce v) (v_renewal v) (v_prior v) (v_proximity v).
Definition with_issuer v x := mk_v (v_created v) (v_expires v) (v_assertion v) (v_serial v) x (v_pinned v) (v_revocation v) (v_nonce v) (v_renewal v) (v_prior v) (v_proximity v).
Definition with_pinned v x := mk_v (v_created v) (v_expires v) (v_assertion v) (v_serial v) (v_issuer v) x (v_revocation v) (v_nonce v) (v_renewal v) (v_prior v) (v_proximity v).
Definition with_revocation v x := mk_v (v_created v) (v_expires v) (v_assertion v) (v_serial v) (v_issuer v) (v_pinned v) x (v_nonce v) (v_renewal v) (v_prior v) (v_proximity v).
Definition with_nonce v x := mk_v (v_created v) (v_expires v) (v_assertion v) (v_serial v) (v_issuer v) (v_pinned v) (v_revocation v) x (v_renewal v) (v_prior v) (v_proximity v).
Definition with_renewal v x := mk_v (v_created v) (v_expires v) (v_assertion v) (v_serial v) (v_issuer v) (v_pinned v) (v_revocation v) (v_nonce v) x (v_prior v) (v_proximity v).
Definition with_prior v x := mk_v (v_created v) (v_expires v) (v_assertion v) (v_serial v) (v_issuer v) (v_pinned v) (v_revocation v) (v_nonce v) (v_renewal v) x (v_proximity v).
Definition with_proximity v x := mk_v (v_created v) (v_expires v) (v_assertion v) (v_serial v) (v_issuer v) (v_pinned v) (v_revocation v) (v_nonce v) (v_renewal v) (v_prior v) x.

(** A setter's result: return code and voucher; [None] is a NULL voucher. *)
Definition setres := outcome (Z * option voucher).

(** ** Setters *)

(** voucher.c 75-90 [set_attr_bool_voucher]. *)
Definition set_attr_bool (v : option voucher) (a : attr) (value : bool) : setres :=
  match v with
  | None => Ok ((-1)%Z, None)
  | Some v =>
    match a with
    | ARevocation => Ok (0%Z, Some (with_revocation v value))
    | _ => Ok ((-1)%Z, Some v)
    end
  end.

(** voucher.c 92-108 [set_attr_strbool_voucher]. *)
Definition set_attr_strbool (v : option voucher) (a : attr) (mem : bytes) (len : N) : setres :=
  do b <- serialize_str2bool (Some mem) len;
  if (b <? 0)%Z then Ok ((-1)%Z, v) else set_attr_bool v a (negb (b =? 0)%Z).

(** voucher.c 110-134 [set_attr_time_voucher]; memcpy from [value]. *)
Definition set_attr_time (v : option voucher) (a : attr) (value : option tm) : setres :=
  match v with
  | None => Ok ((-1)%Z, None)
  | Some v =>
    let cpy (w : tm -> voucher) : setres :=
      match value with
      | None => UB NullDeref
      | Some t => Ok (0%Z, Some (w t))
      end in
    match a with
    | ACreatedOn => cpy (with_created v)
    | AExpiresOn => cpy (with_expires v)
    | ALastRenewal => cpy (with_renewal v)
    | _ => Ok ((-1)%Z, Some v)
    end
  end.

(** voucher.c 136-157 [set_attr_enum_voucher]. *)
Definition set_attr_enum (v : option voucher) (a : attr) (value : Z) : setres :=
  match v with
  | None => Ok ((-1)%Z, None)
  | Some v =>
    match a with
    | AAssertion =>
      if (value <? 1)%Z || (3 <? value)%Z then Ok ((-1)%Z, Some v)
      else Ok (0%Z, Some (with_assertion v value))
    | _ => Ok ((-1)%Z, Some v)
    end
  end.

(** C library strncmp(src, mem, n) == 0 where [src] is a C string. *)
Fixpoint strncmp_eq (src mem : bytes) (n : nat) {struct n} : outcome bool :=
  match n with
  | O => Ok true
  | S n' =>
    match mem with
    | [] => UB OOBRead
    | c :: r =>
      match src with
      | [] => Ok (c =? 0)
      | x :: src' => if x =? c then strncmp_eq src' r n' else Ok false
      end
    end
  end.

(** voucher.c 26-33 [check_size_str_equal]. *)
Definition check_size_str_equal (src mem : bytes) (n : N) : outcome bool :=
  do e <- strncmp_eq src mem (N.to_nat n);
  Ok (e && (blen src =? n)).

(** voucher.c 159-173 [set_attr_strenum_voucher]: the assertions 1..3. *)
Definition set_attr_strenum (v : option voucher) (a : attr) (mem : bytes) (len : N) : setres :=
  do e1 <- check_size_str_equal (s2b "verified") mem len;
  if e1 then set_attr_enum v a 1
  else
    do e2 <- check_size_str_equal (s2b "logged") mem len;
    if e2 then set_attr_enum v a 2
    else
      do e3 <- check_size_str_equal (s2b "proximity") mem len;
      if e3 then set_attr_enum v a 3 else Ok ((-1)%Z, v).

(** voucher.c 175-195 [set_attr_nstr_voucher]. There is no NULL check on the
    voucher. A failed allocation stores NULL. *)
Definition set_attr_nstr (mok : bool) (v : option voucher) (a : attr) (mem : option bytes)
           (len : N) : setres :=
  match a with
  | ASerial =>
    if len <? 128 then
      do d <- sys_strndup mok mem len;
      match v with
      | None => UB NullDeref
      | Some v =>
        match d with
        | None => Ok ((-1)%Z, Some (with_serial v None))
        | Some block => Ok (0%Z, Some (with_serial v (Some (upto_nul block))))
        end
      end
    else Ok ((-1)%Z, v)
  | _ => Ok ((-1)%Z, v)
  end.

(** voucher.c 197-216 [set_attr_str_voucher]; [value] is the memory at the
    pointer. *)
Definition set_attr_str (mok : bool) (v : option voucher) (a : attr) (value : option bytes)
  : setres :=
  match v with
  | None => Ok ((-1)%Z, None)
  | Some _ =>
    match a with
    | ASerial =>
      match value with
      | None => Ok ((-1)%Z, v)
      | Some mem => do n <- sys_strnlen_s mem 128; set_attr_nstr mok v a value n
      end
    | _ => Ok ((-1)%Z, v)
    end
  end.

(** voucher.c 35-45 [is_attr_array_nonempty]. *)
Definition is_attr_array_nonempty (value : option barray) : bool :=
  match value with
  | None => false
  | Some b =>
    match ba_data b with
    | None => negb (ba_len b =? 0)
    | Some _ => true
    end
  end.

(** voucher.c 218-267 [set_attr_array_voucher]. *)
Definition set_attr_array (mok : bool) (v : option voucher) (a : attr) (value : option barray)
  : setres :=
  match v with
  | None => Ok ((-1)%Z, None)
  | Some v =>
    if negb (is_attr_array_nonempty value) then Ok ((-1)%Z, Some v)
    else
      let cpy (dst : barray) (w : barray -> voucher) : setres :=
        do r <- copy_binary_array mok dst value;
        Ok (if (fst r <? 0)%Z then (-1)%Z else 0%Z, Some (w (snd r))) in
      match a with
      | AIssuer => cpy (v_issuer v) (with_issuer v)
      | APinned => cpy (v_pinned v) (with_pinned v)
      | ANonce => cpy (v_nonce v) (with_nonce v)
      | APrior => cpy (v_prior v) (with_prior v)
      | AProximity => cpy (v_proximity v) (with_proximity v)
      | _ => Ok ((-1)%Z, Some v)
      end
  end.

(** voucher.c 269-289 [set_attr_base64_voucher]; [length] bytes at [mem]. The
    decoded buffer is released on both paths, the copy is kept. *)
Definition set_attr_base64 (mok : bool) (v : option voucher) (a : attr) (mem : bytes) (len : N)
  : setres :=
  do src <- take_mem mem len;
  do r <- serialize_base64str2array mok src;
  let (out_length, out) := r in
  if (out_length <? 0)%Z then Ok ((-1)%Z, v)
  else
    let data := match out with PBuf _ d => Some d | _ => None end in
    do s <- set_attr_array mok v a (Some (mk_ba data (Z.to_N out_length)));
    Ok (if (fst s <? 0)%Z then (-1)%Z else 0%Z, snd s).

(** The variable argument of [set_attr_voucher] as passed by the caller. *)
Inductive avalue :=
| VTime (t : option tm)
| VInt (z : Z)            (* int; bool is promoted to int *)
| VStr (s : option bytes)
| VArr (b : option barray).

(** voucher.c 291-338 [set_attr_voucher]. *)
Definition set_attr (mok : bool) (v : option voucher) (a : attr) (x : avalue) : setres :=
  match a with
  | ACreatedOn | AExpiresOn | ALastRenewal =>
    match x with VTime t => set_attr_time v a t | _ => UB BadVararg end
  | AAssertion =>
    match x with VInt z => set_attr_enum v a z | _ => UB BadVararg end
  | ASerial =>
    match x with VStr s => set_attr_str mok v a s | _ => UB BadVararg end
  | AIssuer | APinned | ANonce | APrior | AProximity =>
    match x with VArr b => set_attr_array mok v a b | _ => UB BadVararg end
  | ARevocation =>
    match x with VInt z => set_attr_bool v a (negb (z =? 0)%Z) | _ => UB BadVararg end
  | ABad _ => Ok ((-1)%Z, v)
  end.

(** ** Emptiness, clearing, getters *)

(** voucher.c 340-347 [is_attr_time_nonempty]. *)
Definition is_attr_time_nonempty (t : tm) : bool :=
  negb ((tm_year t =? 0) && (tm_yday t =? 0) && (tm_mon t =? 0) && (tm_wday t =? 0)
        && (tm_mday t =? 0) && (tm_hour t =? 0) && (tm_min t =? 0) && (tm_sec t =? 0))%Z.

(** voucher.c 349-377 [is_attr_voucher_nonempty] for a non-NULL voucher. *)
Definition is_attr_nonempty (v : voucher) (a : attr) : bool :=
  match a with
  | ACreatedOn => is_attr_time_nonempty (v_created v)
  | AExpiresOn => is_attr_time_nonempty (v_expires v)
  | ALastRenewal => is_attr_time_nonempty (v_renewal v)
  | AAssertion => negb (v_assertion v =? 0)%Z
  | ASerial => match v_serial v with None => false | Some _ => true end
  | AIssuer => is_attr_array_nonempty (Some (v_issuer v))
  | APinned => is_attr_array_nonempty (Some (v_pinned v))
  | ANonce => is_attr_array_nonempty (Some (v_nonce v))
  | APrior => is_attr_array_nonempty (Some (v_prior v))
  | AProximity => is_attr_array_nonempty (Some (v_proximity v))
  | ARevocation => true
  | ABad _ => false
  end.

(** voucher.c 379-427 [clear_attr_voucher]. *)
Definition clear_attr (v : option voucher) (a : attr) : Z * option voucher :=
  match v with
  | None => ((-1)%Z, None)
  | Some v =>
    (0%Z, Some match a with
    | ACreatedOn => with_created v tm_zero
    | AExpiresOn => with_expires v tm_zero
    | ALastRenewal => with_renewal v tm_zero
    | AAssertion => with_assertion v 0
    | ASerial => with_serial v None
    | AIssuer => with_issuer v ba_null
    | APinned => with_pinned v ba_null
    | ANonce => with_nonce v ba_null
    | APrior => with_prior v ba_null
    | AProximity => with_proximity v ba_null
    | ARevocation => with_revocation v false
    | ABad _ => v
    end)
  end.

(** voucher.c 429-442 [get_attr_bool_voucher]: the pointed-to value, [None] for
    a NULL result; likewise below. *)
Definition get_attr_bool (v : option voucher) (a : attr) : option bool :=
  match v, a with Some v, ARevocation => Some (v_revocation v) | _, _ => None end.
(** voucher.c 444-464 [get_attr_time_voucher]. *)
Definition get_attr_time (v : option voucher) (a : attr) : option tm :=
  match v with
  | None => None
  | Some v =>
    match a with
    | ACreatedOn => Some (v_created v)
    | AExpiresOn => Some (v_expires v)
    | ALastRenewal => Some (v_renewal v)
    | _ => None
    end
  end.
(** voucher.c 466-479 [get_attr_enum_voucher]. *)
Definition get_attr_enum (v : option voucher) (a : attr) : option Z :=
  match v, a with Some v, AAssertion => Some (v_assertion v) | _, _ => None end.
(** voucher.c 481-494 [get_attr_str_voucher]: pointer to the string pointer. *)
Definition get_attr_str (v : option voucher) (a : attr) : option (option bytes) :=
  match v, a with Some v, ASerial => Some (v_serial v) | _, _ => None end.
(** voucher.c 496-519 [get_attr_array_voucher]. *)
Definition get_attr_array (v : option voucher) (a : attr) : option barray :=
  match v with
  | None => None
  | Some v =>
    match a with
    | AIssuer => Some (v_issuer v)
    | APinned => Some (v_pinned v)
    | ANonce => Some (v_nonce v)
    | APrior => Some (v_prior v)
    | AProximity => Some (v_proximity v)
    | _ => None
    end
  end.

(** ** Serialisation (allocations succeed) *)

(** voucher.c 520-535 [escape_serialize_time]. *)
Definition escape_serialize_time (t : tm) : outcome (option bytes) :=
  match serialize_time2str t with
  | None => Ok None
  | Some s => serialize_escapestr (Some s)
  end.

(** voucher.c 537-551 [escape_serialize_array]. A NULL array of non-zero length
    would be read. *)
Definition escape_serialize_array (b : barray) : outcome (option bytes) :=
  do src <- (match ba_data b with
             | None => if ba_len b =? 0 then Ok [] else UB NullDeref
             | Some d => take_mem d (ba_len b)
             end);
  do r <- serialize_array2base64str true src;
  let (n, out) := r in
  if (n <? 0)%Z then Ok None
  else
    match out with
    | PBuf _ d => serialize_escapestr (Some (upto_nul d))
    | _ => serialize_escapestr None
    end.

(** voucher.c 553-583 [serialize_attr_voucher]. *)
Definition serialize_attr (v : voucher) (a : attr) : outcome (option bytes) :=
  match a with
  | ACreatedOn => escape_serialize_time (v_created v)
  | AExpiresOn => escape_serialize_time (v_expires v)
  | ALastRenewal => escape_serialize_time (v_renewal v)
  | AAssertion => do n <- assertion_name (v_assertion v); serialize_escapestr n
  | ASerial => serialize_escapestr (v_serial v)
  | AIssuer => escape_serialize_array (v_issuer v)
  | APinned => escape_serialize_array (v_pinned v)
  | ANonce => escape_serialize_array (v_nonce v)
  | APrior => escape_serialize_array (v_prior v)
  | AProximity => escape_serialize_array (v_proximity v)
  | ARevocation => do s <- serialize_bool2str (v_revocation v); Ok (Some s)
  | ABad _ => Ok None
  end.

(** voucher.c 585-626 [voucher_to_keyvalue]: the loop over the attributes. *)
Fixpoint voucher_to_keyvalue (v : voucher) (attrs : list attr)
         (acc : list (bytes * bytes)) : outcome (option (list (bytes * bytes))) :=
  match attrs with
  | [] => Ok (Some acc)
  | a :: rest =>
    if is_attr_nonempty v a then
      do key <- serialize_escapestr (Some (attr_name a));
      match key with
      | None => Ok None
      | Some key =>
        do value <- serialize_attr v a;
        match value with
        | None => Ok None
        | Some value => voucher_to_keyvalue v rest (acc ++ [(key, value)])
        end
      end
    else voucher_to_keyvalue v rest acc
  end.

(** voucher.c 628-645 [serialize_child_voucher]. *)
Definition serialize_child_voucher (v : voucher) : outcome (option bytes) :=
  do kvs <- voucher_to_keyvalue v all_attrs [];
  match kvs with
  | None => Ok None
  | Some kvs => serialize_keyvalue2json (Some kvs)
  end.

(** voucher.c 647-688 [serialize_voucher]. *)
Definition serialize_voucher (v : option voucher) : outcome (option bytes) :=
  match v with
  | None => Ok None
  | Some v =>
    do child <- serialize_child_voucher v;
    match child with
    | None => Ok None
    | Some child =>
      do key <- serialize_escapestr (Some root_name);
      match key with
      | None => Ok None
      | Some key => serialize_keyvalue2json (Some [(key, child)])
      end
    end
  end.

(** ** Deserialisation *)

(** snprintf(buf, 64, "%.*s", (int) len, mem): at most [len] bytes up to a NUL,
    of which the first 63 are kept. [len] is below 2^31. *)
Fixpoint str_upto (mem : bytes) (n : nat) {struct n} : outcome bytes :=
  match n with
  | O => Ok []
  | S n' =>
    match mem with
    | [] => UB OOBRead
    | c :: r => if c =? 0 then Ok [] else do s <- str_upto r n'; Ok (c :: s)
    end
  end.

(** voucher.c 690-709 [set_attr_strtime_voucher]. *)
Definition set_attr_strtime (v : option voucher) (a : attr) (mem : bytes) (len : N) : setres :=
  do s <- str_upto mem (N.to_nat len);
  let buf := firstn 63 s in
  match serialize_str2time (Some buf) with
  | None => Ok ((-1)%Z, v)
  | Some t => set_attr_time v a (Some t)
  end.

(** The parsing setter that voucher.c 711-796 uses for an attribute. *)
Definition set_by_text (v : option voucher) (a : attr) (mem : bytes) (len : N) : setres :=
  match a with
  | ACreatedOn | AExpiresOn | ALastRenewal => set_attr_strtime v a mem len
  | AAssertion => set_attr_strenum v a mem len
  | ASerial => set_attr_nstr true v a (Some mem) len
  | AIssuer | APinned | ANonce | APrior | AProximity => set_attr_base64 true v a mem len
  | ARevocation => set_attr_strbool v a mem len
  | ABad _ => Ok ((-1)%Z, v)
  end.

(** voucher.c 711-796 [set_keyvalue_voucher]: the chain of comparisons, in
    source order. *)
Fixpoint set_keyvalue (attrs : list attr) (v : option voucher) (key : bytes) (key_len : N)
         (value : bytes) (value_len : N) : setres :=
  match attrs with
  | [] => Ok ((-1)%Z, v)
  | a :: rest =>
    do e <- check_size_str_equal (attr_name a) key key_len;
    if e then
      do r <- set_by_text v a value value_len;
      Ok (if (fst r <? 0)%Z then (-1)%Z else 0%Z, snd r)
    else set_keyvalue rest v key key_len value value_len
  end.

(** The address of a token in the text and its length as [size_t]. *)
Definition tok_mem (json : bytes) (t : token) : outcome bytes :=
  if (0 <=? tk_start t)%Z && (tk_start t <=? Z.of_N (blen json))%Z
  then Ok (skipn (Z.to_nat (tk_start t)) json) else UB OOBRead.
Definition tok_len (t : token) : N :=
  Z.to_N ((tk_end t - tk_start t) mod 18446744073709551616)%Z.

(** voucher.c 829-849: the pairs of the root object. [toks] is the list of
    filled slots, [idx] the slot of the object. *)
Fixpoint read_pairs (json : bytes) (toks : list token) (idx : nat) (n j : nat)
         (v : option voucher) : outcome (bool * option voucher) :=
  match n with
  | O => Ok (true, v)
  | S n' =>
    match nth_error toks (idx + j * 2 + 1), nth_error toks (idx + (j * 2 + 1) + 1) with
    | Some k, Some x =>
      do key <- tok_mem json k;
      do value <- tok_mem json x;
      do r <- set_keyvalue all_attrs v key (tok_len k) value (tok_len x);
      if (fst r <? 0)%Z then Ok (false, snd r)
      else read_pairs json toks idx n' (S j) (snd r)
    | _, _ => Ok (false, v)
    end
  end.

(** voucher.c 820-863: the search for the root key among the slots from [idx]
    on ([rest] are these slots). The length passed to strncmp is an [int]
    converted to [size_t]. *)
Fixpoint find_root (json : bytes) (toks : list token) (rest : list token) (idx : nat)
         (v : option voucher) : outcome (bool * option voucher) :=
  match rest with
  | [] => Ok (false, v)
  | t :: rest' =>
    do mem <- tok_mem json t;
    do e <- strncmp_eq root_name mem (N.to_nat (tok_len t));
    if e then
      match nth_error toks (S idx) with
      | Some o =>
        match tk_type o with
        | TObject => read_pairs json toks (S idx) (Z.to_nat (tk_size o)) 0 v
        | _ => Ok (false, v)
        end
      | None => Ok (false, v)
      end
    else find_root json toks rest' (S idx) v
  end.

(** voucher.c 798-873 [deserialize_voucher]. [json] is the whole readable
    object, of the given length. [mok]: the allocation of the voucher succeeds
    (its result is not checked); other allocations succeed. *)
Definition deserialize_voucher (mok : bool) (json : option bytes) : outcome (option voucher) :=
  match json with
  | None => Ok None
  | Some js =>
    match jsmn_parse js 32 with
    | inr _ => Ok None
    | inl toks =>
      match toks with
      | [] => Ok None
      | t0 :: rest =>
        match tk_type t0 with
        | TObject =>
          do r <- find_root js toks rest 1 (if mok then Some init_voucher else None);
          if fst r then Ok (snd r) else Ok None
        | _ => Ok None
        end
      end
    end
  end.
