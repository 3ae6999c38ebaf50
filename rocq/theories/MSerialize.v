(** Model of the scalar and key/value functions of src/voucher/serialize.c. *)
From Verif Require Import Base MBase64.
Open Scope N_scope.
Open Scope ub_scope.

(** ** C library helpers *)

(** The C string stored in a buffer: the bytes before the first NUL. *)
Fixpoint upto_nul (l : bytes) : bytes :=
  match l with
  | [] => []
  | c :: r => if c =? 0 then [] else c :: upto_nul r
  end.

(** [tolower] in the C locale (negative [char] values are left unchanged). *)
Definition tolower (c : N) : N :=
  if (65 <=? c) && (c <=? 90) then c + 32 else c.

(** [isspace] in the C locale. *)
Definition isspace (c : N) : bool := ((9 <=? c) && (c <=? 13)) || (c =? 32).

Definition isdigit (c : N) : bool := (48 <=? c) && (c <=? 57).

(** [sprintf] into an object of [cap] bytes: the text and its NUL must fit. *)
Definition sprintf_chk (cap : N) (text : bytes) : outcome bytes :=
  if blen text + 1 <=? cap then Ok text else UB OOBWrite.

(** [strcat(dst, src)] with [dst] in an object of [cap] bytes. *)
Definition strcat_chk (cap : N) (dst src : bytes) : outcome bytes :=
  if blen dst + blen src + 1 <=? cap then Ok (dst ++ src) else UB OOBWrite.

(** ** Key/value list to JSON *)

(** serialize.c 21-46 [concatenate_keyvalue]; the allocation succeeds. *)
Definition concatenate_keyvalue (key value : bytes) (separator : bool)
  : outcome bytes :=
  let length := blen key + blen value + 2 in
  let length := if separator then length + 1 else length in
  if separator then sprintf_chk length (key ++ [58] ++ value ++ [44])
  else sprintf_chk length (key ++ [58] ++ value).

(** serialize.c 72-95: the loop. [json] is the string built so far, [length]
    the size of its block, [count] and [idx] are C [unsigned int]. *)
Fixpoint kv_loop (count idx : N) (json : bytes) (length : N)
         (kvs : list (bytes * bytes)) : outcome (bytes * N) :=
  match kvs with
  | [] => Ok (json, length)
  | (k, v) :: rest =>
    do concat <- concatenate_keyvalue k v (idx <? count - 1);
    let length := length + blen concat in
    do json <- strcat_chk length json concat;
    kv_loop count (idx + 1) json length rest
  end.

(** serialize.c 48-109 [serialize_keyvalue2json]. The list is given by its
    keys and values in walking order (see MArray for the pointers); [None]
    stands for a NULL list. The number of elements is below 2^32, allocations
    succeed. *)
Definition serialize_keyvalue2json (kv_list : option (list (bytes * bytes)))
  : outcome (option bytes) :=
  match kv_list with
  | None => Ok None
  | Some kvs =>
    let count := N.of_nat (List.length kvs) mod 4294967296 in
    if count =? 0 then Ok None
    else
      do json <- strcat_chk 2 [] [123];
      do r <- kv_loop count 0 json (blen json + 1) kvs;
      let (json, length) := r in
      do json <- strcat_chk (length + 1) json [125];
      Ok (Some json)
  end.

(** ** Booleans *)

(** serialize.c 281-290 [serialize_bool2str]. *)
Definition serialize_bool2str (value : bool) : outcome bytes :=
  if value then sprintf_chk 6 (s2b "true") else sprintf_chk 6 (s2b "false").

(** serialize.c 314-319: copying [length] lower-cased bytes to [buf[6]]. *)
Fixpoint lower_copy (str : bytes) (length : nat) (acc : bytes) {struct length}
  : outcome bytes :=
  match length with
  | O => do b <- put 6 acc 0; Ok (rev b)
  | S n =>
    match str with
    | [] => UB OOBRead
    | c :: r => do acc <- put 6 acc (tolower c); lower_copy r n acc
    end
  end.

(** serialize.c 292-329 [serialize_str2bool]. [str] is the readable memory at
    the pointer ([None] for NULL), [length] the second argument. *)
Definition serialize_str2bool (str : option bytes) (length : N) : outcome Z :=
  match str with
  | None => Ok (-1)%Z
  | Some s =>
    if length =? 0 then Ok (-1)%Z
    else if 5 <? length then Ok (-1)%Z
    else
      match s with
      | [] => UB OOBRead
      | c :: _ =>
        if (c =? 48) && (length =? 1) then Ok 0%Z
        else if (c =? 49) && (length =? 1) then Ok 1%Z
        else
          do buf <- lower_copy s (N.to_nat length) [];
          let t := upto_nul buf in
          if beqb t (s2b "false") then Ok 0%Z
          else if beqb t (s2b "true") then Ok 1%Z
          else Ok (-1)%Z
      end
  end.

(** ** Date and time *)

(** [struct tm] without tm_gmtoff and tm_zone, which the code never reads. *)
Record tm := mk_tm {
  tm_sec : Z; tm_min : Z; tm_hour : Z; tm_mday : Z; tm_mon : Z; tm_year : Z;
  tm_wday : Z; tm_yday : Z; tm_isdst : Z }.

Definition tm_zero : tm := mk_tm 0 0 0 0 0 0 0 0 0.

(** Decimal digits of [n], most significant first (at least one digit). *)
Fixpoint dec_digits_aux (fuel : nat) (n : N) (acc : bytes) : bytes :=
  match fuel with
  | O => acc
  | S f =>
    let acc := (48 + n mod 10) :: acc in
    if n <? 10 then acc else dec_digits_aux f (n / 10) acc
  end.
Definition dec_digits (n : N) : bytes := dec_digits_aux (S (N.to_nat (N.log2 n))) n [].

(** glibc strftime number conversion with minimal width [w]; the sign counts
    towards the width. *)
Definition strf_num (w : nat) (v : Z) : bytes :=
  let ds := dec_digits (Z.to_N (Z.abs v)) in
  if (v <? 0)%Z then 45 :: repeat 48 (w - 1 - List.length ds) ++ ds
  else repeat 48 (w - List.length ds) ++ ds.

(** strftime with the format "%Y-%m-%dT%H:%M:%SZ" (glibc; %Y is not padded). *)
Definition strftime_iso (t : tm) : bytes :=
  strf_num 1 (tm_year t + 1900) ++ [45] ++ strf_num 2 (tm_mon t + 1) ++ [45]
  ++ strf_num 2 (tm_mday t) ++ [84] ++ strf_num 2 (tm_hour t) ++ [58]
  ++ strf_num 2 (tm_min t) ++ [58] ++ strf_num 2 (tm_sec t) ++ [90].

(** serialize.c 331-340 [serialize_time2str]: the buffer has 22 bytes; strftime
    returns 0 when the text and its NUL do not fit. *)
Definition serialize_time2str (t : tm) : option bytes :=
  let s := strftime_iso t in
  if blen s + 1 <=? 22 then Some s else None.

(** glibc strptime [get_number(from, to, n)] on the rest of the string (the
    end of the list is the NUL): skip white space, read at most [n] digits
    while [val*10 <= to]. *)
Fixpoint skip_space (s : bytes) : bytes :=
  match s with
  | c :: r => if isspace c then skip_space r else s
  | [] => []
  end.

Fixpoint get_digits (n : nat) (hi val : Z) (s : bytes) : Z * bytes :=
  match n, s with
  | S n', c :: r =>
    if isdigit c && (val * 10 <=? hi)%Z
    then get_digits n' hi (val * 10 + (Z.of_N c - 48))%Z r
    else (val, s)
  | _, _ => (val, s)
  end.

Definition get_number (lo hi : Z) (n : nat) (s : bytes) : option (Z * bytes) :=
  match skip_space s with
  | c :: r =>
    if isdigit c then
      let (v, rest) := get_digits (n - 1) hi (Z.of_N c - 48)%Z r in
      if (v <? lo)%Z || (hi <? v)%Z then None else Some (v, rest)
    else None
  | [] => None
  end.

(** A literal character of the format. *)
Definition get_lit (c : N) (s : bytes) : option bytes :=
  match s with
  | x :: r => if x =? c then Some r else None
  | [] => None
  end.

Definition obnd {A B} (m : option A) (f : A -> option B) : option B :=
  match m with Some a => f a | None => None end.
Notation "'let?' x := m 'in' f" := (obnd m (fun x => f))
  (at level 200, x pattern, m at level 100, f at level 200).

Definition mon_yday (mon : Z) : Z :=
  nth (Z.to_nat mon) [0; 31; 59; 90; 120; 151; 181; 212; 243; 273; 304; 334]%Z 0%Z.
Definition isleap (y : Z) : bool :=
  ((y mod 4 =? 0) && (negb (y mod 100 =? 0) || (y mod 400 =? 0)))%Z.

(** glibc day_of_the_week and day_of_the_year, which strptime runs at the end
    for this format. No theorem depends on these two values. *)
Definition day_of_week (y mon d : Z) : Z :=
  let w := (-473 + 365 * (y - 70) + Z.quot y 4 - Z.quot (Z.quot y 4) 25
            + (if Z.rem (Z.quot y 4) 25 <? 0 then 1 else 0)
            + Z.quot (Z.quot (Z.quot y 4) 25) 4 + mon_yday mon + d - 1)%Z in
  ((Z.rem w 7 + 7) mod 7)%Z.
Definition day_of_year (y mon d : Z) : Z :=
  (mon_yday mon + (if isleap (1900 + y) && (1 <? mon) then 1 else 0) + d - 1)%Z.

(** strptime(str, "%Y-%m-%dT%H:%M:%SZ", tm) on a zeroed [tm]; [None] is NULL.
    The unread rest of the text is returned too. *)
Definition strptime_iso (s : bytes) : option (tm * bytes) :=
  let? (y, s) := get_number 0 9999 4 s in
  let? s := get_lit 45 s in
  let? (mo, s) := get_number 1 12 2 s in
  let? s := get_lit 45 s in
  let? (d, s) := get_number 1 31 2 s in
  let? s := get_lit 84 s in
  let? (h, s) := get_number 0 23 2 s in
  let? s := get_lit 58 s in
  let? (mi, s) := get_number 0 59 2 s in
  let? s := get_lit 58 s in
  let? (se, s) := get_number 0 61 2 s in
  let? s := get_lit 90 s in
  let y := (y - 1900)%Z in let mo := (mo - 1)%Z in
  Some (mk_tm se mi h d mo y (day_of_week y mo d) (day_of_year y mo d) 0, s).

(** serialize.c 342-361 [serialize_str2time]. [None] for a NULL string. The
    result is the return code and the new content of [*tm] when it succeeds;
    on failure [*tm] is partially filled, no caller reads it. *)
Definition serialize_str2time (str : option bytes) : option tm :=
  match str with
  | None => None
  | Some s => match strptime_iso s with Some (t, _) => Some t | None => None end
  end.

(** serialize.c 380-397 [serialize_escapestr]: quotes are added, nothing is
    escaped. *)
Definition serialize_escapestr (str : option bytes) : outcome (option bytes) :=
  match str with
  | None => Ok None
  | Some s => do r <- sprintf_chk (blen s + 3) ([34] ++ s ++ [34]); Ok (Some r)
  end.
