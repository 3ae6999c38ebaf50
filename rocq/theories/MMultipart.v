(** Model of requests whose content comes in parts (multipart/form-data):
    src/brski/http/httplib.h 4585-4623 (boundary, parameters of a part), 4670-4941
    (MultipartFormDataParser), 6483-6592 (read_content, read_content_core). It completes
    [process_turn] of MWire.v and [ranged_turn] of MRange.v for these requests. *)
From Verif Require Import Base MSerialize MHttp MTls MWire MRange.
Open Scope N_scope.

(** httplib.h 2660-2665 trim_double_quotes_copy. *)
Definition trim_quotes (s : bytes) : bytes :=
  if (2 <=? blen s) && (hd 0 s =? 34) && (last s 0 =? 34) then removelast (tl s) else s.

(** std::string::find and MultipartFormDataParser::buf_find (4889-4916): the first place of
    [pat], or the length; [pat] is not empty. *)
Fixpoint place_of (pat s : bytes) : nat :=
  match s with
  | [] => O
  | c :: r => if has_prefix pat s then O else S (place_of pat r)
  end.

(** httplib.h 4585-4596 parse_multipart_boundary; no boundary: [None]. *)
Definition parse_boundary (ctype : bytes) : option bytes :=
  let rest := skipn (place_of (s2b "boundary=") ctype) ctype in
  match rest with
  | [] => None
  | _ =>
    let b := trim_quotes (skipn 9 (firstn (place_of [59] rest) rest)) in
    match b with [] => None | _ => Some b end
  end.

(** httplib.h 4598-4623 parse_disposition_params: key and value of each part between
    semicolons. A pair that comes again is left out there; here it comes after the first
    one, and only the first one of a name is looked at. *)
Definition disposition_params (s : bytes) : list (bytes * bytes) :=
  flat_map (fun kv => match split (S (S (List.length kv))) 61 kv with [] => [] | k :: vs => [(trim_quotes k, trim_quotes (last vs []))] end)
    (split (S (S (List.length s))) 59 s).
Definition param (k : bytes) (ps : list (bytes * bytes)) : option bytes :=
  match find (fun e => beqb k (fst e)) ps with Some e => Some (snd e) | None => None end.

(** httplib.h 4843-4854 start_with_case_ignore. *)
Definition prefix_ci (p s : bytes) : bool := beqb (map tolower (firstn (List.length p) s)) (map tolower p).
(** The expression at 4744-4746: Content-Disposition:\s*form-data;\s* and the rest, in which
    there is no line end; [None]: no match. *)
Definition no_line_end (s : bytes) : bool := forallb (fun c => negb ((c =? 10) || (c =? 13))) s.
Definition match_disposition (h : bytes) : option bytes :=
  if prefix_ci (s2b "Content-Disposition:") h then
    let r := skip_white (skipn 20 h) in
    if prefix_ci (s2b "form-data;") r then
      let v := skip_white (skipn 10 r) in if no_line_end v then Some v else None
    else None
  else None.
(** The expression at 4768-4769: UTF-8'' and a text. *)
Definition match_extended (s : bytes) : bool :=
  prefix_ci (s2b "UTF-8''") s && negb (beqb (skipn 7 s) []) && no_line_end (skipn 7 s).

(** httplib.h 443-448 MultipartFormData; a file name is not kept (no handler looks at the
    parts). *)
Record part := mk_part { pt_name : bytes; pt_type : bytes; pt_content : bytes }.
(** 4720-4784: one line of the head of a part; [None]: not valid. *)
Definition part_header (h : bytes) (f : part) : option part :=
  match parse_header h with
  | None => None
  | Some _ =>
    if prefix_ci (s2b "Content-Type:") h then Some (mk_part (pt_name f) (trim (skipn 13 h)) (pt_content f))
    else
      match match_disposition h with
      | None => Some f
      | Some v =>
        let ps := disposition_params v in
        match param (s2b "name") ps with
        | None => None
        | Some n =>
          match param (s2b "filename*") ps with
          | Some x => if match_extended x then Some (mk_part n (pt_type f) (pt_content f)) else None
          | None => Some (mk_part n (pt_type f) (pt_content f))
          end
        end
      end
  end.

(** httplib.h 4863-4941 the members of the parser: the state, is_valid_, the bytes between
    buf_spos_ and buf_epos_, the part being read, and the parts given to the callbacks of
    Server::read_content (6496-6512), in their order. *)
Inductive pstate := PBoundary | PEntry | PHeaders | PBody | PAfter.
Record parser := mk_parser { ps_state : pstate; ps_valid : bool; ps_buf : bytes; ps_file : part; ps_files : list part }.
Definition no_part : part := mk_part [] [] [].
Definition new_parser : parser := mk_parser PBoundary false [] no_part [].
Definition FILE_MAX_COUNT : nat := Nat.pow 2 10.
(** 6504-6512: the bytes are added to the last part. *)
Fixpoint add_content (b : bytes) (l : list part) : list part :=
  match l with
  | [] => []
  | [x] => [mk_part (pt_name x) (pt_type x) (pt_content x ++ b)]
  | x :: r => x :: add_content b r
  end.

(** 4706-4791, the lines of a head; the loop ends because each turn takes a line end.
    [None]: not valid; otherwise whether the empty line came. *)
Fixpoint header_lines (fuel : nat) (buf : bytes) (f : part) : option (bool * bytes * part) :=
  match fuel with
  | O => Some (false, buf, f)
  | S n =>
    let pos := place_of CRLF buf in
    if Nat.ltb pos (List.length buf) then
      if Nat.eqb pos 0 then Some (true, skipn 2 buf, f)
      else match part_header (firstn pos buf) f with None => None | Some f => header_lines n (skipn (pos + 2) buf) f end
    else Some (false, buf, f)
  end.

(** 4681-4839 parse, for the boundary [b]: the parser after it and whether it goes on. No
    content exceeds max_size. A turn of the loop takes a byte or leaves the state
    [PEntry]. *)
Fixpoint parse_loop (fuel : nat) (b : bytes) (p : parser) : parser * bool :=
  match fuel with
  | O => (p, true)
  | S n =>
    match ps_buf p with
    | [] => (p, true)
    | buf =>
      match ps_state p with
      | PBoundary =>
        let first := s2b "--" ++ b ++ CRLF in
        let buf := skipn (place_of first buf) buf in
        if Nat.ltb (List.length buf) (List.length first) then (mk_parser PBoundary (ps_valid p) buf (ps_file p) (ps_files p), true)
        else if negb (has_prefix first buf) then (mk_parser PBoundary (ps_valid p) buf (ps_file p) (ps_files p), false)
        else parse_loop n b (mk_parser PEntry (ps_valid p) (skipn (List.length first) buf) (ps_file p) (ps_files p))
      | PEntry => parse_loop n b (mk_parser PHeaders (ps_valid p) buf no_part (ps_files p))
      | PHeaders =>
        if MAX_LENGTH <? N.of_nat (place_of CRLF buf) then (p, false)
        else
          match header_lines (S (List.length buf)) buf (ps_file p) with
          | None => (mk_parser PHeaders false buf (ps_file p) (ps_files p), false)
          | Some (false, buf, f) => (mk_parser PHeaders (ps_valid p) buf f (ps_files p), true)
          | Some (true, buf, f) =>
            if Nat.eqb (List.length (ps_files p)) FILE_MAX_COUNT then (mk_parser PHeaders false buf f (ps_files p), false)
            else parse_loop n b (mk_parser PBody (ps_valid p) buf f (ps_files p ++ [f]))
          end
      | PBody =>
        let next := CRLF ++ s2b "--" ++ b in
        if Nat.ltb (List.length buf) (List.length next) then (p, true)
        else
          let pos := place_of next buf in
          if Nat.ltb pos (List.length buf) then
            parse_loop n b (mk_parser PAfter (ps_valid p) (skipn (pos + List.length next) buf) (ps_file p) (add_content (firstn pos buf) (ps_files p)))
          else
            let len := (List.length buf - List.length next)%nat in
            (mk_parser PBody (ps_valid p) (skipn len buf) (ps_file p) (add_content (firstn len buf) (ps_files p)), true)
      | PAfter =>
        if Nat.ltb (List.length buf) 2 then (p, true)
        else if has_prefix CRLF buf then parse_loop n b (mk_parser PEntry (ps_valid p) (skipn 2 buf) (ps_file p) (ps_files p))
        else if has_prefix (s2b "--") buf then (mk_parser PAfter true [] (ps_file p) (ps_files p), true)
        else (p, true)
      end
    end
  end.
Definition parse_part (b : bytes) (x : bytes) (p : parser) : parser * bool :=
  let buf := ps_buf p ++ x in
  parse_loop (2 * List.length buf + 2) b (mk_parser (ps_state p) (ps_valid p) buf (ps_file p) (ps_files p)).

(** httplib.h 4065-4092 read_content_with_length into the parser; as MWire.with_length. *)
Fixpoint length_into (fuel : nat) (left : N) (b : bytes) (p : parser) (s : stream) : bool * parser * stream :=
  if left =? 0 then (true, p, s)
  else
    match fuel with
    | O => (false, p, s)
    | S f =>
      match read (N.min left 4096) s with
      | (GBytes x, s) =>
        let '(p, ok) := parse_part b x p in
        if ok then length_into f (left - blen x) b p s else (false, p, s)
      | (_, s) => (false, p, s)
      end
    end.
(** httplib.h 4106-4124 read_content_without_length: the end of the data, or an error, ends it. *)
Fixpoint rest_into (fuel : nat) (b : bytes) (p : parser) (s : stream) : bool * parser * stream :=
  match fuel with
  | O => (true, p, s)
  | S f =>
    match read 4096 s with
    | (GBytes x, s) => let '(p, ok) := parse_part b x p in if ok then rest_into f b p s else (false, p, s)
    | (_, s) => (true, p, s)
    end
  end.
(** httplib.h 4126-4197 read_content_chunked; as MWire.chunks. *)
Fixpoint chunks_into (fuel : nat) (b : bytes) (hs : headers) (p : parser) (s : stream) : bool * parser * headers * stream :=
  match fuel with
  | O => (false, p, hs, s)
  | S f =>
    match getline s with
    | (None, s) => (false, p, hs, s)
    | (Some line, s) =>
      let '(len, number) := strtoul 16 (upto_nul line) in
      if negb number || (len =? ULONG_MAX) then (false, p, hs, s)
      else if len =? 0 then
        match getline s with
        | (None, s) => (false, p, hs, s)
        | (Some line, s) => let '(ok, hs, s) := trailers (List.length (st_data s)) hs line s in (ok, p, hs, s)
        end
      else
        let '(ok, p, s) := length_into (S (List.length (st_data s))) len b p s in
        if negb ok then (false, p, hs, s)
        else
          match getline s with
          | (None, s) => (false, p, hs, s)
          | (Some line, s) => if beqb (upto_nul line) CRLF then chunks_into f b hs p s else (false, p, hs, s)
          end
    end
  end.

(** httplib.h 6535-6592 read_content_core for a content in parts, with 4200-4284 read_content as
    MWire.read_content: the parts with the headers, or the status of the failure. *)
Inductive form := Form (ps : list part) (hs : headers) | NoForm (status : Z) (hs : headers).
Definition read_form (method : bytes) (hs : headers) (s : stream) : form * stream :=
  match parse_boundary (header_value (s2b "Content-Type") hs) with
  | None => (NoForm 400 hs, s)
  | Some b =>
    if beqb method (s2b "DELETE") && negb (mm_has (s2b "Content-Length") hs) then (Form [] hs, s)
    else
      let encoding := header_value (s2b "Content-Encoding") hs in
      if beqb encoding (s2b "gzip") || beqb encoding (s2b "deflate") || contains (s2b "br") encoding then (NoForm 415 hs, s)
      else
        let '(ok, p, hs, s) :=
          if same_ignoring_case (header_value (s2b "Transfer-Encoding") hs) (s2b "chunked") then chunks_into (S (List.length (st_data s))) b hs new_parser s
          else if negb (mm_has (s2b "Content-Length") hs) then let '(ok, p, s) := rest_into (S (List.length (st_data s))) b new_parser s in (ok, p, hs, s)
          else
            let '(ok, p, s) := length_into (S (List.length (st_data s))) (fst (strtoul 10 (header_value (s2b "Content-Length") hs))) b new_parser s in
            (ok, p, hs, s) in
        if ok && ps_valid p then (Form (ps_files p) hs, s) else (NoForm 400 hs, s)
  end.
(** httplib.h 6483-6523 Server::read_content: the body of a request in parts stays empty. *)
Definition any_content (method : bytes) (hs : headers) (s : stream) : content * stream :=
  if expects_content method && has_prefix (s2b "multipart/form-data") (header_value (s2b "Content-Type") hs) then
    match read_form method hs s with (Form _ hs, s) => (Content [] hs, s) | (NoForm z hs, s) => (Refused z hs, s) end
  else server_content method hs s.

(** httplib.h 6981-7131 Server::process_request, as MRange.ranged_turn. *)
Definition any_turn (boundary : bytes) (cn : conn) (sv : server) (close : bool) (s : stream) : turn :=
  match getline s with
  | (None, _) => Gone
  | (Some line, s) =>
    if MAX_LENGTH <? blen line then
      let '(_, _, s) := read_headers s in Turn (server_reply close [] [] false (failure 414)) None true s
    else
      let rl := parse_request_line (upto_nul line) in
      if negb (rl_ok rl) then Turn (server_reply close (rl_method rl) [] false (failure 400)) None true s
      else
        let '(ok, hs, s) := read_headers s in
        if negb ok then Turn (server_reply close (rl_method rl) hs false (failure 400)) None true s
        else
          let conn_value := header_value (s2b "Connection") hs in
          let closed := beqb conn_value (s2b "close") || (beqb (rl_version rl) (s2b "HTTP/1.0") && negb (beqb conn_value (s2b "Keep-Alive"))) in
          let hs := add_addresses cn hs in
          let '(fine, rs) := if mm_has (s2b "Range") hs then parse_range_header (header_value (s2b "Range") hs) else (true, []) in
          if negb fine then Turn (ranged_reply close (rl_method rl) hs boundary rs false (failure 416)) None (negb closed) s
          else
            let first := if beqb (header_value (s2b "Expect") hs) (s2b "100-continue") then s2b "HTTP/1.1 100 Continue" ++ CRLF ++ CRLF else [] in
            match any_content (rl_method rl) hs s with
            | (Refused z hs, s) => Turn (first ++ ranged_reply close (rl_method rl) hs boundary rs false (failure z)) None (negb closed) s
            | (Content body hs, s) =>
              let req := mk_request (rl_method rl) (rl_path rl) hs body in
              let '(routed, r) := ranged_response sv req rs in
              Turn (first ++ ranged_reply close (rl_method rl) hs boundary rs routed r) (Some req) (negb closed) s
            end
  end.
(** httplib.h 3112-3131, as MWire.serve. *)
Fixpoint any_serve (boundary : nat -> bytes) (count : nat) (cn : conn) (sv : server) (s : stream) : bytes * list request :=
  match count with
  | O => ([], [])
  | S n =>
    match any_turn (boundary n) cn sv (Nat.eqb n 0) s with
    | Turn w h again s =>
      let h := match h with Some q => [q] | None => [] end in
      if again then let '(w', h') := any_serve boundary n cn sv s in (w ++ w', h ++ h') else (w, h)
    | _ => ([], [])
    end
  end.
