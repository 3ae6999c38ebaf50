(** Model of src/utils/log.c and of the standard input reader of
    src/brski/brski.cpp. *)
From Verif Require Import Base MBase64 MSerialize MOs.
Open Scope N_scope.
Open Scope ub_scope.

(** ** printf_hex *)

(** "%02X" (or "%02x") of a uint8_t. *)
Definition hex_digit (upper : bool) (d : N) : N :=
  if d <? 10 then 48 + d else (if upper then 55 else 87) + d.
Definition hex_byte (upper : bool) (b : N) : bytes := [hex_digit upper (b / 16); hex_digit upper (b mod 16)].

(** Bytes written one after another from offset [i]. *)
Fixpoint write_all (mem : bytes) (i : N) (l : bytes) : outcome bytes :=
  match l with
  | [] => Ok mem
  | v :: r => do mem <- write_at mem i v; write_all mem (i + 1) r
  end.

(** snprintf(buf + pos, max, "%s", text): what fits with its NUL is written, the
    length of the whole text is returned. *)
Definition snprintf_at (mem : bytes) (pos max : N) (text : bytes) : outcome (bytes * N) :=
  if max =? 0 then Ok (mem, blen text)
  else do mem <- write_all mem pos (firstn (N.to_nat (max - 1)) text ++ [0]); Ok (mem, blen text).

(** log.h 53-55 [snprintf_error]; the result of snprintf is never negative here. *)
Definition snprintf_error (size res : N) : bool := size <=? res.

(** log.c 327-337, the loop: [len] bytes of [data] are left, [pos] is an offset
    into the buffer. *)
Fixpoint hex_loop (mem : bytes) (pos size : N) (data : bytes) (len : nat) (upper : bool) {struct len} : outcome (bytes * N) :=
  match len with
  | O => Ok (mem, pos)
  | S n =>
    match data with
    | [] => UB OOBRead
    | b :: r =>
      do x <- snprintf_at mem pos (size - pos) (hex_byte upper b);
      let (mem, ret) := x in
      if snprintf_error (size - pos) ret then Ok (mem, pos)
      else hex_loop mem (pos + ret) size r n upper
    end
  end.

(** log.c 314-341 [printf_hex]: the buffer afterwards and the result. A pointer is
    given by the bytes that may be accessed through it, [None] is NULL. Computing
    [buf + buf_size] before the NULL test is taken as harmless. *)
Definition printf_hex (buf : option bytes) (size : N) (data : option bytes) (len : N) (upper : bool) : outcome (option bytes * N) :=
  if size =? 0 then Ok (buf, 0)
  else
    match buf, data with
    | Some mem, Some d =>
      do x <- hex_loop mem 0 size d (N.to_nat len) upper;
      let (mem, pos) := x in
      do mem <- write_at mem (size - 1) 0;
      Ok (Some mem, pos)
    | _, _ => Ok (buf, 0)
    end.

(** ** The log *)

(** log.c 52-64: the state [L]; the lock function and the open file are given by a
    number each ([None]: NULL). [l_next] numbers the files opened. *)
Record logger := mk_logger {
  l_lock : option N; l_level : N; l_quiet : bool; l_meta : bool; l_color : bool; l_file : option N; l_next : N }.
Definition logger_init : logger := mk_logger None 0 false true true None 0.

(** What the outside sees. Stream [None] is stderr. *)
Inductive event :=
| Lock (f : N) | Unlock (f : N)
| Opened (fd : N) | Closed (fd : N)
| Wrote (fd : option N) (text : bytes)
| Ended.

(** gettimeofday, localtime (None: NULL) and strerror at the time of a call. *)
Record clock := mk_clock { ck_local : option tm; ck_usec : N; ck_strerror : Z -> bytes }.

(** log.c 69-92 [time_to_str] into a buffer of [cap] bytes: sprintf without a
    bound, the NUL is written twice. "%04d" of an int is [strf_num 4], the
    milliseconds go through a uint16_t. *)
Definition time_to_str (cap : N) (ck : clock) : outcome bytes :=
  match ck_local ck with
  | None => UB NullDeref
  | Some t =>
    sprintf_chk cap (strf_num 4 (tm_year t + 1900) ++ [45] ++ strf_num 2 (tm_mon t + 1) ++ [45] ++ strf_num 2 (tm_mday t) ++ [32]
      ++ strf_num 2 (tm_hour t) ++ [58] ++ strf_num 2 (tm_min t) ++ [58] ++ strf_num 2 (tm_sec t) ++ [46]
      ++ strf_num 3 (Z.of_N (ck_usec ck / 1000 mod 65536)) ++ [32])
  end.

(** log.c 184-193 [get_error_text]: the string left in the 30-byte buffer. *)
Definition get_error_text (ck : clock) (err : Z) : bytes :=
  if (0 <? err)%Z then firstn 29 ([91] ++ ck_strerror ck err ++ [40] ++ strf_num 1 err ++ [41; 93]) else [].

(** log.h 31-34. *)
Definition level_names : list bytes := [s2b "TRACE"; s2b "DEBUG"; s2b "INFO"; s2b "WARN"; s2b "ERROR"].
Definition esc (s : bytes) : bytes := 27 :: s.
Definition level_colors : list bytes := map esc [s2b "[94m"; s2b "[36m"; s2b "[32m"; s2b "[33m"; s2b "[31m"].
Definition table_at (l : list bytes) (i : N) : outcome bytes :=
  match nth_error l (N.to_nat i) with Some s => Ok s | None => UB OOBRead end.
(** "%-5s". *)
Definition left5 (s : bytes) : bytes := s ++ repeat 32 (5 - List.length s).
(** "%d" of a uint32_t. *)
Definition print_u32 (n : N) : bytes := strf_num 1 (if (n <? 2147483648)%N then Z.of_N n else Z.of_N n - 4294967296)%Z.

(** A call of one of the message functions: [m_text] is the expansion of the format
    and its arguments, [m_errno] the value of errno. *)
Inductive mkind := Levels | ErrnoError | ErrorExit | ErrorExitProc.
Record message := mk_message { m_kind : mkind; m_level : N; m_file : bytes; m_line : N; m_errno : Z; m_text : bytes; m_clock : clock }.
(** log.c 249-312: what they pass to log_msg. *)
Definition ignores_level (k : mkind) : bool := match k with ErrorExitProc => true | _ => false end.
Definition passes_errno (m : message) : Z := match m_kind m with Levels => 0%Z | _ => m_errno m end.
Definition ends (k : mkind) : bool := match k with ErrorExit | ErrorExitProc => true | _ => false end.

(** log.c 164-171 [log_check_level]. *)
Definition log_check_level (s : logger) (level : N) (ignore_level : bool) : bool :=
  if (level <? l_level s) && negb ignore_level then true
  else if l_quiet s && negb ignore_level then true
  else false.

(** log.c 195-217 [print_to]: the text that reaches the stream (one event for the
    fprintf calls, all under the lock). *)
Definition print_to (s : logger) (m : message) (err : Z) (time err_text : bytes) : outcome event :=
  do head <- (if l_meta s then
      do name <- table_at level_names (m_level m);
      if l_color s then
        do color <- table_at level_colors (m_level m);
        Ok (time ++ [32] ++ color ++ left5 name ++ esc (s2b "[0m") ++ err_text ++ esc (s2b "[0m ") ++ esc (s2b "[90m") ++ m_file m ++ [58] ++ print_u32 (m_line m) ++ [58] ++ esc (s2b "[0m "))
      else Ok (time ++ [32] ++ left5 name ++ err_text ++ [32] ++ m_file m ++ [58] ++ print_u32 (m_line m) ++ s2b ": ")
    else Ok []);
  Ok (Wrote (l_file s) (head ++ (if (0 <? err)%Z then [91] ++ ck_strerror (m_clock m) err ++ s2b "] " else []) ++ m_text m ++ [10])).

(** log.c 115-125 [lock], [unlock]. *)
Definition lock_events (s : logger) : list event := match l_lock s with Some f => [Lock f] | None => [] end.
Definition unlock_events (s : logger) : list event := match l_lock s with Some f => [Unlock f] | None => [] end.

(** log.c 219-247 [log_msg]. *)
Definition log_msg (s : logger) (m : message) : outcome (list event) :=
  if log_check_level s (m_level m) (ignores_level (m_kind m)) then Ok []
  else
    let err := passes_errno m in
    let err_text := get_error_text (m_clock m) err in
    do time <- time_to_str 25 (m_clock m);
    do out <- (if negb (l_quiet s) then do e <- print_to s m err time err_text; Ok [e] else Ok []);
    Ok (lock_events s ++ out ++ unlock_events s).

(** log.c 127-162 and the message functions, as operations. [OpenFile ok]: whether
    fopen succeeds; umask is restored and not modelled. *)
Inductive logop :=
| SetLock (f : option N) | SetLevel (n : N) | SetQuiet (b : bool) | SetMeta (b : bool) | SetColor (b : bool)
| OpenFile (ok : bool) | CloseFile | Message (m : message).
Definition log_op (s : logger) (op : logop) : outcome (logger * list event) :=
  match op with
  | SetLock f => Ok (mk_logger f (l_level s) (l_quiet s) (l_meta s) (l_color s) (l_file s) (l_next s), [])
  | SetLevel n => Ok (mk_logger (l_lock s) n (l_quiet s) (l_meta s) (l_color s) (l_file s) (l_next s), [])
  | SetQuiet b => Ok (mk_logger (l_lock s) (l_level s) b (l_meta s) (l_color s) (l_file s) (l_next s), [])
  | SetMeta b => Ok (mk_logger (l_lock s) (l_level s) (l_quiet s) b (l_color s) (l_file s) (l_next s), [])
  | SetColor b => Ok (mk_logger (l_lock s) (l_level s) (l_quiet s) (l_meta s) b (l_file s) (l_next s), [])
  | OpenFile ok =>
    if ok then Ok (mk_logger (l_lock s) (l_level s) (l_quiet s) (l_meta s) false (Some (l_next s)) (l_next s + 1), [Opened (l_next s)])
    else Ok (mk_logger (l_lock s) (l_level s) (l_quiet s) (l_meta s) false None (l_next s), [])
  | CloseFile =>
    match l_file s with
    | Some fd => Ok (mk_logger (l_lock s) (l_level s) (l_quiet s) (l_meta s) (l_color s) None (l_next s), [Closed fd])
    | None => Ok (s, [])
    end
  | Message m => do es <- log_msg s m; Ok (s, es)
  end.

(** A history of calls; after log.c 95-113 [terminate] nothing more happens. *)
Fixpoint log_run (s : logger) (ops : list logop) : outcome (list event) :=
  match ops with
  | [] => Ok []
  | op :: r =>
    do x <- log_op s op;
    let (s, es) := x in
    let over := match op with Message m => ends (m_kind m) | _ => false end in
    if over then Ok (es ++ [Ended])
    else do rest <- log_run s r; Ok (es ++ rest)
  end.

(** ** Standard input *)

(** brski.cpp 22 MAX_STDIN_SIZE. *)
Definition MAX_STDIN_SIZE : N := 4096.

(** brski.cpp 228-237 [read_stdin]: [input] is what read() delivers, byte by byte,
    before it returns 0 or -1. A read of nothing writes nothing. *)
Fixpoint stdin_loop (buf : bytes) (cnt : N) (input : bytes) : outcome (bytes * Z) :=
  match input with
  | [] => Ok (buf, Z.of_N cnt)
  | c :: r =>
    do buf <- write_at buf cnt c;
    if MAX_STDIN_SIZE <? cnt + 1 then Ok (buf, (-1)%Z)
    else stdin_loop buf (cnt + 1) r
  end.
Definition read_stdin (buf input : bytes) : outcome (bytes * Z) := stdin_loop buf 0 input.

(** brski.cpp 410, 419-424: the part of [main] that reads the voucher; the buffer
    [junk] is the uninitialised local array. [None]: "Input size exceeds max". *)
Definition main_reads (junk input : bytes) : outcome (option (bytes * N)) :=
  do x <- read_stdin junk input;
  let (buf, sz) := x in
  if (sz <? 0)%Z then Ok None
  else do buf <- write_at buf (Z.to_N sz) 0; Ok (Some (buf, Z.to_N sz)).
