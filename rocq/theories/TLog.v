(** Property theorems C51-C53, C75, C76: hexadecimal printing, the log, standard
    input. *)
From Verif Require Import Base PBase MBase64 MSerialize MOs MLog SSerialize SArray SLog PLog PLog2.
Open Scope N_scope.

(** C51 is false: when the buffer cuts a byte in two, the result is not the length
    of the string. *)
Theorem C51_refuted : exists mem size data len up mem' n, 0 < size /\ size <= blen mem /\ 0 < len /\ len <= blen data /\ bytes_ok data /\
  printf_hex (Some mem) size (Some data) len up = Ok (Some mem', n) /\ n <> blen (c_string mem').
Proof. exact hex_length_refuted. Qed.
Print Assumptions C51_refuted.

(** C51 is false: no data leaves the old text in the buffer. *)
Theorem C51_empty_refuted : exists mem size data mem' n, 0 < size /\ size <= blen mem /\ printf_hex (Some mem) size (Some data) 0 true = Ok (Some mem', n) /\ c_string mem' <> hex_text true [].
Proof. exact hex_empty_refuted. Qed.
Print Assumptions C51_empty_refuted.

(** C51, what holds for every buffer and every non-empty data: the string is as much
    of the hexadecimal text as fits, nothing behind the buffer is touched, the
    result counts the characters of the bytes that fit as a whole. Missing: empty
    data, and that the result is the length. *)
Theorem C51_text_partial : forall mem size data len up, 0 < size -> size <= blen mem -> 0 < len -> len <= blen data -> bytes_ok data ->
  exists mem', printf_hex (Some mem) size (Some data) len up = Ok (Some mem', 2 * N.min len ((size - 1) / 2)) /\
    blen mem' = blen mem /\ skipn (N.to_nat size) mem' = skipn (N.to_nat size) mem /\ nth_error mem' (N.to_nat (size - 1)) = Some 0 /\
    c_string mem' = firstn (N.to_nat (size - 1)) (hex_text up (firstn (N.to_nat len) data)).
Proof. exact hex_spec. Qed.
Print Assumptions C51_text_partial.

(** C51, exactly when the result is the length of the string. *)
Theorem C51_length_partial : forall mem size data len up mem' n, 0 < size -> size <= blen mem -> 0 < len -> len <= blen data -> bytes_ok data ->
  printf_hex (Some mem) size (Some data) len up = Ok (Some mem', n) -> (n = blen (c_string mem') <-> 2 * len < size \/ size mod 2 = 1).
Proof. exact hex_length. Qed.
Print Assumptions C51_length_partial.

(** C51 for the calls that print nothing: NULL pointers and an empty buffer, and no
    data, where only the last place of the buffer is written. *)
Theorem C51_nothing : forall buf size data len up, size = 0 \/ buf = None \/ data = None -> printf_hex buf size data len up = Ok (buf, 0).
Proof. exact hex_null. Qed.
Print Assumptions C51_nothing.
Theorem C51_empty : forall mem size data up, 0 < size -> size <= blen mem -> printf_hex (Some mem) size (Some data) 0 up = Ok (Some (set_nth mem (N.to_nat (size - 1)) 0), 0).
Proof. exact hex_empty. Qed.
Print Assumptions C51_empty.

Example C51_case : printf_hex (Some (repeat 7 18)) 16 (Some [1; 35; 69; 103; 137; 171; 205; 239]) 8 true = Ok (Some (s2b "0123456789ABCDE" ++ [0; 7; 7]), 14).
Proof. vm_compute. reflexivity. Qed.

(** C52 is false: a level above the five of the table reads behind it. *)
Theorem C52_refuted : exists ops k, log_run logger_init ops = UB k.
Proof. exact level_refuted. Qed.
Print Assumptions C52_refuted.

(** C52 for histories of calls with the five levels and years of four digits: what
    is shown is what the settings in force say, and every lock is released. *)
Theorem C52_history_partial : forall ops es, Forall call_ok ops -> log_run logger_init ops = Ok es -> history [] ops es /\ bracketed es.
Proof. exact log_spec. Qed.
Print Assumptions C52_history_partial.
Theorem C52_total_partial : forall ops, Forall call_ok ops -> exists es, log_run logger_init ops = Ok es.
Proof. exact log_total. Qed.
Print Assumptions C52_total_partial.

(** C52, exactly which message after such a history is not survived. *)
Theorem C52_exact_partial : forall ops m t, Forall call_ok ops -> Forall goes_on ops -> ck_local (m_clock m) = Some t -> clock_ranges (m_clock m) t ->
  ((exists k, log_run logger_init (ops ++ [Message m]) = UB k) <->
   reached (rev ops) m /\ ((tm_year t + 1900 < -999 \/ 9999 < tm_year t + 1900)%Z \/ shown (rev ops) m /\ meta_in (rev ops) = true /\ 4 < m_level m)).
Proof. exact message_crash. Qed.
Print Assumptions C52_exact_partial.

Example C52_case : let ops := [Message (message_case Levels 0); SetLevel 3; SetLock (Some 9); Message (message_case Levels 2); OpenFile true; Message (message_case ErrnoError 3); SetQuiet true; Message (message_case ErrorExitProc 0); Message (message_case Levels 4)] in
  Forall call_ok ops /\ log_run logger_init ops = Ok
    [Wrote None (s2b "1973-11-29 21:33:09.123  " ++ (27 :: s2b "[94mTRACE") ++ (27 :: s2b "[0m") ++ (27 :: s2b "[0m ") ++ (27 :: s2b "[90ma.c:7:") ++ (27 :: s2b "[0m hello") ++ [10]);
     Opened 0; Lock 9; Wrote (Some 0) (s2b "1973-11-29 21:33:09.123  WARN [Bad(22)] a.c:7: [Bad] hello" ++ [10]); Unlock 9; Lock 9; Unlock 9; Ended].
Proof. split; [repeat (apply Forall_cons; [first [exact Logic.I|split; [apply N.leb_le; reflexivity|exists (s2b "1973-11-29 21:33:09.123 "); exact clock_case_shows]]|]); apply Forall_nil|vm_compute; reflexivity]. Qed.

(** C53 is false: 4096 bytes of input are written past the buffer. *)
Theorem C53_refuted : exists junk input k, blen junk = 4096 /\ main_reads junk input = UB k.
Proof. exact stdin_refuted. Qed.
Print Assumptions C53_refuted.

(** C53 for shorter inputs: the buffer holds the input and a NUL. *)
Theorem C53_partial : forall junk input, blen junk = 4096 -> blen input < 4096 ->
  exists buf, main_reads junk input = Ok (Some (buf, blen input)) /\ blen buf = 4096 /\ firstn (List.length input) buf = input /\ nth_error buf (List.length input) = Some 0.
Proof. exact main_reads_ok. Qed.
Print Assumptions C53_partial.

(** C53, all other inputs write past the buffer; none is refused. *)
Theorem C53_over_partial : forall junk input, blen junk = 4096 -> 4096 <= blen input -> main_reads junk input = UB OOBWrite.
Proof. exact main_reads_over. Qed.
Print Assumptions C53_over_partial.

Example C53_case : match main_reads (repeat 7 (N.to_nat 4096)) (s2b "AAAA") with Ok (Some (buf, n)) => n = 4 /\ firstn 6 buf = s2b "AAAA" ++ [0; 7] | _ => False end.
Proof. vm_compute. split; reflexivity. Qed.

(** C75 is false: a year of five digits does not fit the time stamp's buffer. *)
Theorem C75_refuted : exists ck t k, ck_local ck = Some t /\ clock_ranges ck t /\ time_to_str 25 ck = UB k.
Proof. exact stamp_refuted. Qed.
Print Assumptions C75_refuted.
(** C75, exactly when. *)
Theorem C75_exact_partial : forall ck t, ck_local ck = Some t -> (0 <= tm_mon t <= 11)%Z -> (1 <= tm_mday t <= 31)%Z -> (0 <= tm_hour t <= 23)%Z -> (0 <= tm_min t <= 59)%Z -> (0 <= tm_sec t <= 60)%Z -> ck_usec ck < 1000000 ->
  ((exists k, time_to_str 25 ck = UB k) <-> (tm_year t + 1900 < -999 \/ 9999 < tm_year t + 1900)%Z).
Proof. exact time_iff. Qed.
Print Assumptions C75_exact_partial.
(** C75, the text for years of at most four digits. *)
Theorem C75_text_partial : forall ck t, clock_shows ck t -> time_to_str 25 ck = Ok t.
Proof. exact time_ok. Qed.
Print Assumptions C75_text_partial.
Example C75_case : clock_shows (clock_case 73) (s2b "1973-11-29 21:33:09.123 ").
Proof. exact clock_case_shows. Qed.

(** C76 is false: opening a second log file loses the first. *)
Theorem C76_refuted : exists ops es fd, Forall call_ok ops /\ Forall goes_on ops /\ log_run logger_init ops = Ok es /\ In (Opened fd) es /\ ~ In (Closed fd) es /\ file_in (rev ops) = None.
Proof. exact log_files_refuted. Qed.
Print Assumptions C76_refuted.
(** C76 when a file is opened only while none is open. *)
Theorem C76_partial : forall ops es fd, Forall call_ok ops -> Forall goes_on ops -> one_file [] ops -> log_run logger_init ops = Ok es -> In (Opened fd) es -> In (Closed fd) es \/ file_in (rev ops) = Some fd.
Proof. exact log_files. Qed.
Print Assumptions C76_partial.
Example C76_case : one_file [] [OpenFile true; CloseFile; OpenFile true] /\ log_run logger_init [OpenFile true; CloseFile; OpenFile true] = Ok [Opened 0; Closed 0; Opened 1].
Proof. split; [repeat split|reflexivity]. Qed.
