(** Property theorems for C133 and C134: contents in parts (multipart/form-data). *)
From Verif Require Import Base MSerialize MHttp SHttp PHttp MTls MWire MRange SWire PWire PWire8 SLength SChunk MMultipart SMultipart SMultipart2 PMultipart4 PMultipart3 PMultipart5 PMultipart6 PMultipart7 PMultipart8.
Open Scope N_scope.

(** C133 is false: the content of a request in parts without a boundary is handled as a request. *)
Theorem C133_boundary_refuted : exists head body pick, one_message head body (text head ++ CRLF ++ body) /\ hd_error head = Some (s2b "POST /.well-known/brski/requestvoucher HTTP/1.1") /\ In (s2b "Content-Type: multipart/form-data") head /\
  handled_any (mk_stream (text head ++ CRLF ++ body) pick 0 false) = [the_voucher_request].
Proof. exact no_boundary_refuted. Qed.
Print Assumptions C133_boundary_refuted.

(** C133 is false: so is what arrives after a part that is not valid. *)
Theorem C133_part_refuted : exists head first pick, let body := first ++ ask_voucher (s2b "MIIB") in one_message head body (text head ++ CRLF ++ body) /\ In (s2b "Content-Type: multipart/form-data; boundary=xyz") head /\
  first = s2b "--xyz" ++ CRLF ++ s2b "X" ++ CRLF /\ handled_any (mk_stream (text head ++ CRLF ++ body) pick 0 false) = [the_voucher_request].
Proof. exact bad_part_refuted. Qed.
Print Assumptions C133_part_refuted.

(** C133, what holds: whatever arrives, a request in parts that is handled leaves what comes after the
    bytes its first Content-Length tells, and its handler gets no body. *)
Theorem C133_framed_partial : forall bd cn sv close s w req again s' v vs t r, any_turn bd cn sv close s = Turn w (Some req) again s' -> rq_method req = s2b "POST" ->
  values_ci (s2b "Content-Type") (rq_headers req) = v :: vs -> is_prefix (s2b "multipart/form-data") v -> values_ci (s2b "Transfer-Encoding") (rq_headers req) = [] ->
  values_ci (s2b "Content-Length") (rq_headers req) = t :: r -> digits_text t -> blen (st_data s) < ULONG_MAX ->
  exists head content, st_data s = head ++ CRLF ++ content ++ st_data s' /\ blen content = decimal t /\ rq_body req = [].
Proof. exact form_framed. Qed.
Print Assumptions C133_framed_partial.

Example C133_framed_case : match any_turn [] some_conn quiet_server false (mk_stream (text (form_head (form_text (s2b "xyz") some_form)) ++ CRLF ++ form_text (s2b "xyz") some_form ++ s2b "more") (fun n => 7 + N.of_nat n mod 5) 0 false) with
  | Turn _ (Some q) true s => rq_method q = s2b "POST" /\ values_ci (s2b "Content-Type") (rq_headers q) = [s2b "multipart/form-data; boundary=xyz"] /\ values_ci (s2b "Content-Length") (rq_headers q) = [s2b "200"] /\
      decimal (s2b "200") = 200 /\ rq_body q = [] /\ st_data s = s2b "more"
  | _ => False
  end.
Proof. vm_compute. repeat split; reflexivity. Qed.

(** C133: the other requests are read as C100 to C106, C124 and C125 say, and no request is left out. *)
Theorem C133_others_partial : (forall bd cn sv close s, ranged_turn bd cn sv close s <> Elsewhere -> any_turn bd cn sv close s = ranged_turn bd cn sv close s) /\
  (forall bd cn sv close s, any_turn bd cn sv close s <> Elsewhere).
Proof. exact (conj any_turn_ranged any_turn_somewhere). Qed.
Print Assumptions C133_others_partial.

Example C133_others_case : exists w q s, ranged_turn [] some_conn quiet_server false (mk_stream (ask_voucher (s2b "MIIB")) (fun _ => 2) 0 false) = Turn w (Some q) false s /\
  ranged_turn [] some_conn quiet_server false (mk_stream (text (form_head []) ++ CRLF) (fun _ => 2) 0 false) = Elsewhere.
Proof. eexists _, _, _. split; vm_compute; reflexivity. Qed.

(** C133: a form whose first line arrives at once is one request without a body, and the next request begins behind it. *)
Theorem C133_next_partial : forall bd cn sv close s path lines b l more c, plain_path path -> Forall plain_line lines -> conn_ok cn -> values_ci (s2b "Range") lines = [] -> boundary_ok b -> Forall (part_ok b) l -> l <> [] -> (List.length l <= FILE_MAX_COUNT)%nat ->
  values_ci (s2b "Content-Type") lines = [s2b "multipart/form-data; boundary=" ++ b] -> values_ci (s2b "Content-Encoding") lines = [] -> values_ci (s2b "Transfer-Encoding") lines = [] ->
  values_ci (s2b "Content-Length") lines = [dec_digits (blen (form_text b l))] -> blen (form_text b l) <= ULONG_MAX -> holds (own_request path lines (form_text b l) ++ more) c s ->
  blen b + 4 <= st_pick s (st_reads s + List.length (own_request path lines [])) ->
  exists out again s', any_turn bd cn sv close s = Turn out (Some (mk_request (s2b "POST") path (arriving (lines ++ conn_lines cn)) [])) again s' /\ st_data s' = more.
Proof. exact form_arrives. Qed.
Print Assumptions C133_next_partial.

Example C133_next_case : let lines := [(s2b "Content-Length", s2b "200"); (s2b "content-type", s2b "multipart/form-data; boundary=xyz")] in
  match any_turn [] some_conn quiet_server false (mk_stream (own_request (s2b "/a b") lines (form_text (s2b "xyz") some_form) ++ ask_voucher (s2b "MIIB")) (fun n => if Nat.eqb n 94 then 7 else 1 + N.of_nat n mod 3) 0 false) with
  | Turn _ (Some q) true s => List.length (own_request (s2b "/a b") lines []) = 94%nat /\ q = mk_request (s2b "POST") (s2b "/a b") (arriving (lines ++ conn_lines some_conn)) [] /\ st_data s = ask_voucher (s2b "MIIB")
  | _ => False
  end.
Proof. vm_compute. repeat split; reflexivity. Qed.

(** C134 is false: the same bytes are a form or a bad request, as the first line of the content
    arrives at once or not. *)
Theorem C134_cut_refuted : exists b l p1 p2 q, boundary_ok b /\ Forall (part_ok b) l /\ let data := text (form_head (form_text b l)) ++ CRLF ++ form_text b l in
  handled_any (mk_stream data p1 0 false) = [q] /\ handled_any (mk_stream data p2 0 false) = [].
Proof. exact cut_form_refuted. Qed.
Print Assumptions C134_cut_refuted.

(** C134 is false: so with a text after the last line, which must arrive with that line. *)
Theorem C134_late_refuted : exists b l p1 p2 q, boundary_ok b /\ Forall (part_ok b) l /\ let body := form_text b l ++ s2b "end of the form" ++ CRLF in let data := text (form_head body) ++ CRLF ++ body in
  handled_any (mk_stream data p1 0 false) = [q] /\ handled_any (mk_stream data p2 0 false) = [].
Proof. exact late_text_refuted. Qed.
Print Assumptions C134_late_refuted.

(** C134, what holds: when the first line arrives at once, a form of any parts with names, other parameters, types and
    other lines and any contents is read as it was written, however the rest arrives, and what follows it is left. *)
Theorem C134_read_partial : forall b l hs s more r, boundary_ok b -> Forall (part_ok b) l -> l <> [] -> (List.length l <= FILE_MAX_COUNT)%nat ->
  values_ci (s2b "Content-Type") hs = (s2b "multipart/form-data; boundary=" ++ b) :: r -> values_ci (s2b "Content-Encoding") hs = [] -> values_ci (s2b "Transfer-Encoding") hs = [] ->
  values_ci (s2b "Content-Length") hs = [dec_digits (blen (form_text b l))] -> blen (form_text b l) <= ULONG_MAX -> st_data s = form_text b l ++ more -> blen b + 4 <= st_pick s (st_reads s) ->
  exists s', read_form (s2b "POST") hs s = (Form (map (fun x => mk_part (head_name (fst x)) (head_type (fst x)) (snd x)) l) hs, s') /\ st_data s' = more.
Proof. exact form_read. Qed.
Print Assumptions C134_read_partial.

Example C134_read_case : boundary_ok (s2b "xyz") /\ Forall (part_ok (s2b "xyz")) some_form /\ some_form = [([LName (s2b "serial"); LType (s2b "text/plain")], s2b "12345"); ([LOther (s2b "X-Sum") (s2b "7"); LParams [(s2b "filename", s2b "a.txt")] (s2b "note") [(s2b "name", s2b "x")]], CRLF ++ s2b "--xy" ++ [0; 255])] /\
  match read_form (s2b "POST") [(s2b "Content-Length", s2b "200"); (s2b "Content-Type", s2b "multipart/form-data; boundary=xyz")] (mk_stream (form_text (s2b "xyz") some_form ++ s2b "more") (fun n => match n with O => 7 | _ => 1 end) 0 false) with
  | (Form l _, s) => l = [mk_part (s2b "serial") (s2b "text/plain") (s2b "12345"); mk_part (s2b "note") [] (CRLF ++ s2b "--xy" ++ [0; 255])] /\ st_data s = s2b "more"
  | _ => False
  end.
Proof. split; [exact (proj1 some_form_ok)|]. split; [exact (proj2 some_form_ok)|]. split; [reflexivity|]. vm_compute. split; reflexivity. Qed.

(** C134, what holds of every content: a form that is accepted names a boundary in its type, and its content has
    the first and the last line of this boundary; it has no more than 1024 parts; without a length it is all that
    arrives. *)
Theorem C134_whole_partial : forall hs s l hs' s', read_form (s2b "POST") hs s = (Form l hs', s') -> values_ci (s2b "Transfer-Encoding") hs' = [] ->
  exists v vs b content, values_ci (s2b "Content-Type") hs = v :: vs /\ b <> [] /\ part_of b v /\ st_data s = content ++ st_data s' /\ part_of (s2b "--" ++ b ++ [13; 10]) content /\ part_of (between b ++ s2b "--") content /\
    N.of_nat (List.length l) <= 1024 /\ (values_ci (s2b "Content-Length") hs = [] -> st_data s' = []).
Proof. exact form_whole. Qed.
Print Assumptions C134_whole_partial.

Example C134_whole_case : match read_form (s2b "POST") [(s2b "Content-Type", s2b "multipart/form-data; boundary=xyz")] (mk_stream (s2b "before" ++ CRLF ++ form_text (s2b "xyz") some_form) (fun n => match n with O => 20 | _ => 3 end) 0 true) with
  | (Form l hs, s) => List.length l = 2%nat /\ values_ci (s2b "Transfer-Encoding") hs = [] /\ st_data s = []
  | _ => False
  end.
Proof. vm_compute. repeat split; reflexivity. Qed.

(** C134, what holds in chunks: a form sent in any chunks, the first one with the whole first line, which arrives at
    once, is read as it was written. *)
Theorem C134_chunked_partial : forall b l hs s more r v k ks size extension trailer, boundary_ok b -> Forall (part_ok b) l -> l <> [] -> (List.length l <= FILE_MAX_COUNT)%nat ->
  values_ci (s2b "Content-Type") hs = (s2b "multipart/form-data; boundary=" ++ b) :: r -> values_ci (s2b "Content-Encoding") hs = [] -> values_ci (s2b "Transfer-Encoding") hs = [v] -> plain_value v -> same_name v (s2b "chunked") ->
  Forall chunk_ok (k :: ks) -> last_ok size extension -> Forall plain_line trailer -> data_of (k :: ks) = form_text b l -> blen b + 4 <= blen (ck_data k) ->
  st_data s = chunked_text (k :: ks) size extension trailer ++ more -> blen b + 4 <= st_pick s (st_reads s + List.length (ck_size k ++ ck_extension k ++ CRLF)) ->
  exists hs' s', read_form (s2b "POST") hs s = (Form (map (fun x => mk_part (head_name (fst x)) (head_type (fst x)) (snd x)) l) hs', s') /\ st_data s' = more.
Proof. exact chunked_form. Qed.
Print Assumptions C134_chunked_partial.

Example C134_chunked_case : exists k1 k2, ck_size k1 = s2b "14" /\ ck_extension k1 = s2b ";a=b" /\ data_of [k1; k2] = form_text (s2b "xyz") some_form /\ hex_read (ck_size k1) = blen (ck_data k1) /\ hex_read (ck_size k2) = blen (ck_data k2) /\
  match read_form (s2b "POST") [(s2b "Content-Type", s2b "multipart/form-data; boundary=xyz"); (s2b "Transfer-Encoding", s2b "Chunked")]
    (mk_stream (chunked_text [k1; k2] (s2b "00") [] [(s2b "X-Sum", s2b "77")] ++ s2b "more") (fun n => if Nat.eqb n 8 then 7 else 2) 0 false) with
  | (Form l _, s) => l = [mk_part (s2b "serial") (s2b "text/plain") (s2b "12345"); mk_part (s2b "note") [] (CRLF ++ s2b "--xy" ++ [0; 255])] /\ st_data s = s2b "more"
  | _ => False
  end.
Proof.
  exists (mk_chunk (s2b "14") (s2b ";a=b") (firstn 20 (form_text (s2b "xyz") some_form))), (mk_chunk (s2b "B4") [] (skipn 20 (form_text (s2b "xyz") some_form))).
  vm_compute. repeat split; reflexivity.
Qed.

(** C134, what holds of invalid heads: a form whose first part begins with a line that is no header line, with a field
    without a name or with a file name in no known coding is answered with 400, whatever follows and however it arrives
    after the first line. *)
Theorem C134_heads_partial : forall b line y hs s n r, boundary_ok b -> bad_head line ->
  values_ci (s2b "Content-Type") hs = (s2b "multipart/form-data; boundary=" ++ b) :: r -> values_ci (s2b "Content-Encoding") hs = [] -> values_ci (s2b "Transfer-Encoding") hs = [] ->
  values_ci (s2b "Content-Length") hs = [dec_digits n] -> blen b + 4 <= n <= ULONG_MAX -> st_data s = s2b "--" ++ b ++ [13; 10] ++ line ++ [13; 10] ++ y -> blen b + 4 <= st_pick s (st_reads s) ->
  exists s', read_form (s2b "POST") hs s = (NoForm 400 hs, s').
Proof. exact bad_form. Qed.
Print Assumptions C134_heads_partial.

Example C134_heads_case : bad_head (s2b "Content-Disposition: form-data; file=" ++ [34] ++ s2b "serial" ++ [34]) /\
  match read_form (s2b "POST") [(s2b "Content-Length", s2b "80"); (s2b "Content-Type", s2b "multipart/form-data; boundary=xyz")]
    (mk_stream (s2b "--xyz" ++ CRLF ++ s2b "Content-Disposition: form-data; file=" ++ [34] ++ s2b "serial" ++ [34] ++ CRLF ++ CRLF ++ s2b "12345" ++ CRLF ++ s2b "--xyz--" ++ CRLF) (fun n => match n with O => 7 | _ => 3 end) 0 false) with
  | (NoForm z _, _) => z = 400%Z
  | _ => False
  end.
Proof.
  split; [|vm_compute; reflexivity]. apply (bad_no_name (s2b "file") (s2b "serial")); [discriminate| |discriminate|]; apply Forall_forall; intros c I; vm_compute in I; unfold boundary_char; repeat (destruct I as [<-|I]; [Lia.lia|]); destruct I.
Qed.
