(** Model of requests for a part of an answer: src/brski/http/httplib.h 4624-4668
    (parse_range_header), 5038-5128 (the places and the text of the parts), 6346-6372 and
    6854-6965 (apply_ranges), 7046-7053 (in process_request). It completes [process_turn]
    of MWire.v for requests with a Range header. *)
From Verif Require Import Base MSerialize MHttp MTls MWire.
Open Scope N_scope.

(** httplib.h 534 Range: first and last place, -1 where none is given. *)
Definition range : Type := Z * Z.

(** The text before and after the first minus sign. *)
Fixpoint cut_minus (acc s : bytes) : option (bytes * bytes) :=
  match s with
  | [] => None
  | c :: r => if c =? 45 then Some (rev acc, r) else cut_minus (c :: acc) r
  end.
Definition is_digit (c : N) : bool := (48 <=? c) && (c <=? 57).
(** The regular expression \d*-\d*, with \s* before it if [blanks] (4629, 4639), and its
    groups. *)
Definition match_range (blanks : bool) (p : bytes) : option (bytes * bytes) :=
  match cut_minus [] (if blanks then skip_white p else p) with
  | Some (a, b) => if forallb is_digit a && forallb is_digit b then Some (a, b) else None
  | None => None
  end.
(** The group of the expression at 4629: a first range and further ones after commas. *)
Definition match_ranges (s : bytes) : bool :=
  match parts (S (S (List.length s))) 44 [] s with
  | p :: r => match match_range false p with Some _ => forallb (fun p => match match_range true p with Some _ => true | None => false end) r | None => false end
  | [] => false
  end.

(** 4643-4651: a group as a number; std::stoll throws above LLONG_MAX ([None]). *)
Definition LLONG_MAX : N := 9223372036854775807.
Definition group_value (d : bytes) : option Z :=
  match d with
  | [] => Some (-1)%Z
  | _ => let v := number_value 10 0 d in if v <=? LLONG_MAX then Some (Z.of_N v) else None
  end.
(** 4635-4658: the ranges one after the other; what came before a failure stays. *)
Fixpoint take_ranges (ps : list bytes) (acc : list range) : bool * list range :=
  match ps with
  | [] => (true, acc)
  | p :: r =>
    match match_range true p with
    | None => take_ranges r acc
    | Some (a, b) =>
      match group_value a, group_value b with
      | Some first, Some last =>
        if negb (first =? -1)%Z && negb (last =? -1)%Z && (last <? first)%Z then (false, acc) else take_ranges r (acc ++ [(first, last)])
      | _, _ => (false, acc)
      end
    end
  end.
(** httplib.h 4627-4668 parse_range_header. Failures of std::regex for lack of memory are
    not modelled. *)
Definition parse_range_header (s : bytes) : bool * list range :=
  if has_prefix (s2b "bytes=") s && match_ranges (skipn 6 s)
  then take_ranges (split (S (S (List.length s))) 44 (skipn 6 s)) []
  else (false, []).

(** httplib.h 5038-5058 get_range_offset_and_length; size_t has 64 bits and no body 2^63
    bytes. *)
Definition SIZE_MOD : Z := 18446744073709551616.
Definition range_place (len : N) (r : range) : N * N :=
  let '(f, l) := r in
  if (f =? -1)%Z && (l =? -1)%Z then (0, len)
  else
    let slen := Z.of_N len in
    let '(f, l) := if (f =? -1)%Z then (Z.max 0 (slen - l), slen - 1)%Z else (f, l) in
    let l := if (l =? -1)%Z then (slen - 1)%Z else l in
    (Z.to_N f, Z.to_N (((l - f) mod SIZE_MOD + 1) mod SIZE_MOD)).
(** std::string::substr, for an offset inside. *)
Definition substr (offset len : N) (s : bytes) : bytes := firstn (N.to_nat (N.min len (blen s))) (skipn (N.to_nat offset) s).

(** httplib.h 5060-5074 make_content_range_header_field. *)
Definition content_range (r : range) (len : N) : bytes :=
  s2b "bytes " ++ (if (fst r =? -1)%Z then [] else to_text (fst r)) ++ [45] ++ (if (snd r =? -1)%Z then [] else to_text (snd r)) ++ [47] ++ dec_digits len.

(** httplib.h 5076-5128 process_multipart_ranges_data, make_multipart_ranges_data;
    [content_length_] is 0 for a response with a body (5696-5703). *)
Fixpoint parts_data (boundary ctype body : bytes) (rs : list range) : option bytes :=
  match rs with
  | [] => Some (s2b "--" ++ boundary ++ s2b "--")
  | r :: rest =>
    let '(offset, len) := range_place 0 r in
    if offset <? blen body then
      match parts_data boundary ctype body rest with
      | Some d => Some (s2b "--" ++ boundary ++ CRLF ++ (match ctype with [] => [] | _ => s2b "Content-Type: " ++ ctype ++ CRLF end)
          ++ s2b "Content-Range: " ++ content_range r 0 ++ CRLF ++ CRLF ++ substr offset len body ++ CRLF ++ d)
      | None => None
      end
    else None
  end.

(** multimap::erase of the element that find gave. *)
Fixpoint erase_first (k : bytes) (hs : headers) : headers :=
  match hs with
  | [] => []
  | e :: r => if ci_same k (fst e) then r else e :: erase_first k r
  end.
Definition set_body (b : bytes) (r : response) : response := mk_response (rs_status r) (rs_headers r) b.

(** httplib.h 6854-6965 apply_ranges without compression and without content provider;
    [boundary] is what make_multipart_data_boundary gives (4957-4976). *)
Definition apply_ranges (boundary : bytes) (rs : list range) (r : response) : response :=
  let '(ctype, r) :=
    match rs with
    | _ :: _ :: _ =>
      (match find (fun e => ci_same (s2b "Content-Type") (fst e)) (rs_headers r) with Some e => snd e | None => [] end,
       set_header (s2b "Content-Type") (s2b "multipart/byteranges; boundary=" ++ boundary) (mk_response (rs_status r) (erase_first (s2b "Content-Type") (rs_headers r)) (rs_body r)))
    | _ => ([], r)
    end in
  match rs_body r with
  | [] => r
  | body =>
    let r :=
      match rs with
      | [] => r
      | [x] =>
        let r := set_header (s2b "Content-Range") (content_range x (blen body)) r in
        let '(offset, len) := range_place (blen body) x in
        if offset <? blen body then set_body (substr offset len body) r else set_status 416 (set_body [] r)
      | _ =>
        match parts_data boundary ctype body rs with
        | Some d => set_body d r
        | None => set_status 416 (set_body [] r)
        end
      end in
    set_header (s2b "Content-Length") (dec_digits (blen (rs_body r))) r
  end.

(** httplib.h 6346-6430 write_response_core, as MWire.server_reply. *)
Definition ranged_reply (close : bool) (method : bytes) (hs : headers) (boundary : bytes) (rs : list range) (routed : bool) (r : response) : bytes :=
  let failing := (400 <=? rs_status r)%Z in
  let r := if failing then error_handler r else r in
  let r := if routed || failing then apply_ranges boundary rs r else r in
  let r := if close || beqb (header_value (s2b "Connection") hs) (s2b "close") then set_header (s2b "Connection") (s2b "close") r
           else set_header (s2b "Keep-Alive") (s2b "timeout=5, max=5") r in
  let r := if negb (mm_has (s2b "Content-Type") (rs_headers r)) && negb (beqb (rs_body r) []) then set_header (s2b "Content-Type") (s2b "text/plain") r else r in
  let r := if negb (mm_has (s2b "Content-Length") (rs_headers r)) && beqb (rs_body r) [] then set_header (s2b "Content-Length") (s2b "0") r else r in
  let r := if negb (mm_has (s2b "Accept-Ranges") (rs_headers r)) && beqb method (s2b "HEAD") then set_header (s2b "Accept-Ranges") (s2b "bytes") r else r in
  s2b "HTTP/1.1 " ++ to_text (rs_status r) ++ [32] ++ status_message (rs_status r) ++ CRLF ++ write_headers (rs_headers r)
  ++ (if beqb method (s2b "HEAD") then [] else rs_body r).

(** httplib.h 7069-7131, the status of a response that has none (7118-7120). *)
Definition ranged_response (sv : server) (req : request) (rs : list range) : bool * response :=
  let res := mk_response (-1) [] [] in
  let '(routed, r) := match routing sv req res with inl x => x | inr w => (true, exception_handler w res) end in
  (routed, if (rs_status r =? -1)%Z then set_status (if routed then match rs with [] => 200 | _ => 206 end else 404)%Z r else r).

(** httplib.h 6981-7131 Server::process_request, as MWire.process_turn. A refused header
    (7048-7051) is answered before the content is read. *)
Definition ranged_turn (boundary : bytes) (cn : conn) (sv : server) (close : bool) (s : stream) : turn :=
  match getline s with
  | (None, _) => Gone
  | (Some line, s) =>
    if MAX_LENGTH <? blen line then
      let '(_, _, s) := read_headers s in Turn (server_reply close [] [] false (failure 414)) None true s
    else
      let rl := parse_request_line (upto_nul line) in
      if negb (rl_ok rl) then Turn (server_reply close (rl_method rl) [] false (failure 400)) None true s
      else
        let '(ok, hs, s) := read_headers s in
        if negb ok then Turn (server_reply close (rl_method rl) hs false (failure 400)) None true s
        else
          let conn_value := header_value (s2b "Connection") hs in
          let closed := beqb conn_value (s2b "close") || (beqb (rl_version rl) (s2b "HTTP/1.0") && negb (beqb conn_value (s2b "Keep-Alive"))) in
          let hs := add_addresses cn hs in
          let '(fine, rs) := if mm_has (s2b "Range") hs then parse_range_header (header_value (s2b "Range") hs) else (true, []) in
          if negb fine then Turn (ranged_reply close (rl_method rl) hs boundary rs false (failure 416)) None (negb closed) s
          else if expects_content (rl_method rl) && has_prefix (s2b "multipart/form-data") (header_value (s2b "Content-Type") hs) then Elsewhere
          else
            let first := if beqb (header_value (s2b "Expect") hs) (s2b "100-continue") then s2b "HTTP/1.1 100 Continue" ++ CRLF ++ CRLF else [] in
            match server_content (rl_method rl) hs s with
            | (Refused z hs, s) => Turn (first ++ ranged_reply close (rl_method rl) hs boundary rs false (failure z)) None (negb closed) s
            | (Content body hs, s) =>
              let req := mk_request (rl_method rl) (rl_path rl) hs body in
              let '(routed, r) := ranged_response sv req rs in
              Turn (first ++ ranged_reply close (rl_method rl) hs boundary rs routed r) (Some req) (negb closed) s
            end
  end.
(** httplib.h 3112-3131, as MWire.serve; [boundary] may be another one for each request. *)
Fixpoint ranged_serve (boundary : nat -> bytes) (count : nat) (cn : conn) (sv : server) (s : stream) : bytes * list request * bool :=
  match count with
  | O => ([], [], true)
  | S n =>
    match ranged_turn (boundary n) cn sv (Nat.eqb n 0) s with
    | Gone => ([], [], true)
    | Elsewhere => ([], [], false)
    | Turn w h again s =>
      let h := match h with Some q => [q] | None => [] end in
      if again then let '(w', h', ok) := ranged_serve boundary n cn sv s in (w ++ w', h ++ h', ok) else (w, h, true)
    end
  end.
