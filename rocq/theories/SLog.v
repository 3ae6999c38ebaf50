(** Specification of the log and of hexadecimal printing. *)
From Verif Require Import Base SArray SSerialize MSerialize MLog.
Open Scope N_scope.

(** ** Hexadecimal text *)
Definition upper_digits : bytes := s2b "0123456789ABCDEF".
Definition lower_digits : bytes := s2b "0123456789abcdef".
Definition digit16 (upper : bool) (d : N) : N := nth (N.to_nat d) (if upper then upper_digits else lower_digits) 0.
Definition hex_text (upper : bool) (d : bytes) : bytes := flat_map (fun b => [digit16 upper (b / 16); digit16 upper (b mod 16)]) d.

(** ** The log, read off the history of calls *)

(** The last setting made in a history (latest first), or the initial one. *)
Fixpoint latest {A} (f : logop -> option A) (d : A) (past : list logop) : A :=
  match past with
  | [] => d
  | op :: r => match f op with Some x => x | None => latest f d r end
  end.
Definition level_in := latest (fun op => match op with SetLevel n => Some n | _ => None end) 0.
Definition quiet_in := latest (fun op => match op with SetQuiet b => Some b | _ => None end) false.
Definition meta_in := latest (fun op => match op with SetMeta b => Some b | _ => None end) true.
Definition color_in := latest (fun op => match op with SetColor b => Some b | OpenFile _ => Some false | _ => None end) true.
Definition lock_in := latest (fun op => match op with SetLock f => Some f | _ => None end) None.
(** Files are numbered in the order they are opened. *)
Definition opened_in (past : list logop) : N := N.of_nat (List.length (filter (fun op => match op with OpenFile true => true | _ => false end) past)).
Fixpoint file_in (past : list logop) : option N :=
  match past with
  | [] => None
  | OpenFile true :: r => Some (opened_in r)
  | OpenFile false :: r => None
  | CloseFile :: r => None
  | _ :: r => file_in r
  end.

(** A message that passes the level and is not silenced. *)
Definition shown (past : list logop) (m : message) : Prop :=
  quiet_in past = false /\ (m_kind m = ErrorExitProc \/ level_in past <= m_level m).
(** A message that gets as far as the lock. *)
Definition reached (past : list logop) (m : message) : Prop :=
  m_kind m = ErrorExitProc \/ quiet_in past = false /\ level_in past <= m_level m.

(** The five level names, padded, and their colours. *)
Definition level_name (n : N) : bytes :=
  match n with 0 => s2b "TRACE" | 1 => s2b "DEBUG" | 2 => s2b "INFO " | 3 => s2b "WARN " | _ => s2b "ERROR" end.
Definition level_color (n : N) : bytes :=
  27 :: match n with 0 => s2b "[94m" | 1 => s2b "[36m" | 2 => s2b "[32m" | 3 => s2b "[33m" | _ => s2b "[31m" end.

(** YYYY-MM-DD HH:MM:SS.mmm and a space. *)
Definition three (v : N) : bytes := [digit_at 2 v; digit_at 1 v; digit_at 0 v].
Definition time_text (y mo d h mi s ms : N) : bytes :=
  four y ++ s2b "-" ++ two mo ++ s2b "-" ++ two d ++ s2b " " ++ two h ++ s2b ":" ++ two mi ++ s2b ":" ++ two s ++ s2b "." ++ three ms ++ s2b " ".

(** The clock shows a time with a year of four digits. *)
Definition clock_shows (ck : clock) (t : bytes) : Prop :=
  exists y mo d h mi s, y <= 9999 /\ 1 <= mo <= 12 /\ 1 <= d <= 31 /\ h < 24 /\ mi < 60 /\ s <= 60 /\ ck_usec ck < 1000000 /\
    (exists t0, ck_local ck = Some t0 /\ tm_year t0 = (Z.of_N y - 1900)%Z /\ tm_mon t0 = (Z.of_N mo - 1)%Z /\ tm_mday t0 = Z.of_N d /\ tm_hour t0 = Z.of_N h /\ tm_min t0 = Z.of_N mi /\ tm_sec t0 = Z.of_N s) /\
    t = time_text y mo d h mi s (ck_usec ck / 1000).

(** The line written for a message, when its error number is [err]. *)
Definition error_note (m : message) (err : Z) : bytes :=
  if (0 <? err)%Z then firstn 29 (s2b "[" ++ ck_strerror (m_clock m) err ++ s2b "(" ++ strf_num 1 err ++ s2b ")]") else [].
Definition line_text (past : list logop) (m : message) (err : Z) (time : bytes) : bytes :=
  let where_ := m_file m ++ s2b ":" ++ print_u32 (m_line m) ++ s2b ":" in
  (if meta_in past then
     if color_in past then
       time ++ s2b " " ++ level_color (m_level m) ++ level_name (m_level m) ++ (27 :: s2b "[0m") ++ error_note m err ++ (27 :: s2b "[0m ") ++ (27 :: s2b "[90m") ++ where_ ++ (27 :: s2b "[0m ")
     else time ++ s2b " " ++ level_name (m_level m) ++ error_note m err ++ s2b " " ++ where_ ++ s2b " "
   else [])
  ++ (if (0 <? err)%Z then s2b "[" ++ ck_strerror (m_clock m) err ++ s2b "] " else []) ++ m_text m ++ [10].
Definition errno_of (m : message) : Z := match m_kind m with Levels => 0%Z | _ => m_errno m end.

(** What one call shows, given the calls before it. *)
Definition effect (past : list logop) (op : logop) (es : list event) : Prop :=
  match op with
  | Message m =>
    ~ reached past m /\ es = [] \/
    reached past m /\ exists time, clock_shows (m_clock m) time /\ exists out,
      (shown past m /\ out = [Wrote (file_in past) (line_text past m (errno_of m) time)] \/ ~ shown past m /\ out = []) /\
      es = match lock_in past with Some f => [Lock f] ++ out ++ [Unlock f] | None => out end
  | OpenFile true => es = [Opened (opened_in past)]
  | CloseFile => es = match file_in past with Some fd => [Closed fd] | None => [] end
  | _ => es = []
  end.
Definition stops (op : logop) : bool :=
  match op with Message m => match m_kind m with ErrorExit | ErrorExitProc => true | _ => false end | _ => false end.

(** A history of calls and what it shows; [past] is latest first. *)
Fixpoint history (past : list logop) (ops : list logop) (es : list event) : Prop :=
  match ops with
  | [] => es = []
  | op :: r => exists e1 e2, es = e1 ++ e2 /\ effect past op e1 /\ if stops op then e2 = [Ended] else history (op :: past) r e2
  end.

(** Every lock taken is released by the same function before another is taken,
    with nothing but one line written in between. *)
Inductive bracketed : list event -> Prop :=
| br_nil : bracketed []
| br_other : forall e l, (forall f, e <> Lock f /\ e <> Unlock f) -> bracketed l -> bracketed (e :: l)
| br_pair : forall f l, bracketed l -> bracketed (Lock f :: Unlock f :: l)
| br_line : forall f fd t l, bracketed l -> bracketed (Lock f :: Wrote fd t :: Unlock f :: l).

(** The calls a history may make without leaving the tables and the time buffer. *)
Definition call_ok (op : logop) : Prop :=
  match op with Message m => m_level m <= 4 /\ exists time, clock_shows (m_clock m) time | _ => True end.

(** A file is opened only when none is open. *)
Fixpoint one_file (past ops : list logop) : Prop :=
  match ops with
  | [] => True
  | op :: r => (match op with OpenFile _ => file_in past = None | _ => True end) /\ one_file (op :: past) r
  end.
(** No call ends the process. *)
Definition goes_on (op : logop) : Prop := stops op = false.
(** The ranges localtime and gettimeofday keep to. *)
Definition clock_ranges (ck : clock) (t : tm) : Prop :=
  (0 <= tm_mon t <= 11)%Z /\ (1 <= tm_mday t <= 31)%Z /\ (0 <= tm_hour t <= 23)%Z /\ (0 <= tm_min t <= 59)%Z /\ (0 <= tm_sec t <= 60)%Z /\ ck_usec ck < 1000000.
