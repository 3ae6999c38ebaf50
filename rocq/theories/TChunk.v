(** Messages sent in chunks. Theorems only. *)
From Verif Require Import Base PBase MSerialize MHttp SHttp PHttp PHttp2 MTls MWire SWire PWire PWire2 PWire3 PWire4 PWire5 PWire6 PWire7 PWire8 SChunk PChunk PChunk2 PChunk3.
Open Scope N_scope.

(** C125, what holds: a POST request sent in any number of chunks of any sizes, with
    extensions, a trailer and even a length that contradicts them, reaches the handler as
    one request with the data of all chunks, what follows stays for the next request, and
    the client gets the handler's answer. The full statement also asks that the trailer
    be kept apart, that sizes be hexadecimal numbers and that a list of codings be
    understood. *)
Theorem C125_request_partial : forall cn sv close s path lines ks size extension trailer more c, plain_path path -> chunk_lines_ok lines trailer -> Forall chunk_ok ks -> last_ok size extension -> conn_ok cn ->
  holds (own_request path lines (chunked_text ks size extension trailer) ++ more) c s ->
  let req := mk_request (s2b "POST") path (arriving (lines ++ conn_lines cn ++ trailer)) (data_of ks) in
  exists out again s', process_turn cn sv close s = Turn out (Some req) again s' /\ holds more c s' /\
    let p := process_request sv req in (usual_server sv req -> (101 <= rs_status p <= 999)%Z ->
      forall more' pick orderly, client_reply (mk_stream (out ++ more') pick 0 orderly) = Replied (rs_status p) (received (rs_status p) (rs_body p))).
Proof. exact chunked_arrives. Qed.
Print Assumptions C125_request_partial.

(** C125: a request in chunks that is cut off anywhere is never handled. *)
Theorem C125_request_cut : forall n cn sv s path lines ks size extension trailer p y c, plain_path path -> chunk_lines_ok lines trailer -> Forall chunk_ok ks -> last_ok size extension -> conn_ok cn ->
  own_request path lines (chunked_text ks size extension trailer) = p ++ y -> y <> [] -> holds p c s -> exists w, serve n cn sv s = (w, [], true).
Proof. exact chunked_cut. Qed.
Print Assumptions C125_request_cut.

(** C125: an answer in chunks reaches the client whole, but for one with 204. *)
Theorem C125_answer : forall s st reason lines ks size extension trailer more c, (101 <= st <= 999)%Z -> Forall (fun c => c <> 0 /\ c <> 10 /\ c <> 13) reason -> chunk_lines_ok lines trailer -> Forall chunk_ok ks -> last_ok size extension ->
  holds (answer_text st reason lines (chunked_text ks size extension trailer) ++ more) c s -> client_reply s = Replied st (received st (data_of ks)).
Proof. exact chunked_answer. Qed.
Print Assumptions C125_answer.

(** C125: an answer in chunks that is cut off anywhere is never taken. *)
Theorem C125_answer_cut : forall s st reason lines ks size extension trailer p y c, (101 <= st <= 999)%Z -> st <> 204%Z -> Forall (fun c => c <> 0 /\ c <> 10 /\ c <> 13) reason -> chunk_lines_ok lines trailer -> Forall chunk_ok ks -> last_ok size extension ->
  answer_text st reason lines (chunked_text ks size extension trailer) = p ++ y -> y <> [] -> holds p c s -> client_reply s = Closed \/ client_reply s = Failed.
Proof. exact chunked_answer_cut. Qed.
Print Assumptions C125_answer_cut.

(** C125 is false: a size that is no hexadecimal number is taken for one. *)
Theorem C125_size_refuted : exists size data pick req, size = s2b "0x4" /\ ~ Forall hex_digit size /\ data <> [] /\ rq_body req = data /\
  handled (mk_stream (own_request PATH_BRSKI_REQUESTVOUCHER in_chunks (size ++ CRLF ++ data ++ CRLF ++ s2b "0" ++ CRLF ++ CRLF)) pick 0 false) = [req].
Proof. exact size_refuted. Qed.
Print Assumptions C125_size_refuted.

(** C125 is false: a line of the trailer counts as one of the head; a request without a
    content type gets one after its content. *)
Theorem C125_trailer_refuted : exists lines ks trailer pick req, values_ci (s2b "Content-Type") lines = [] /\ Forall chunk_ok ks /\
  handled (mk_stream (own_request PATH_BRSKI_REQUESTVOUCHER lines (chunked_text ks (s2b "0") [] trailer)) pick 0 false) = [req] /\
  values_ci (s2b "Content-Type") (rq_headers req) = [s2b "application/voucher-cms+json"].
Proof. exact trailer_refuted. Qed.
Print Assumptions C125_trailer_refuted.

(** C125 is false: of a list of codings that ends with chunked the chunks are not
    understood; the handler gets the sizes as part of the content. *)
Theorem C125_codings_refuted : exists lines ks pick req, values_ci (s2b "Transfer-Encoding") lines = [s2b "identity, chunked"] /\ Forall chunk_ok ks /\
  handled (mk_stream (own_request PATH_BRSKI_REQUESTVOUCHER lines (chunked_text ks (s2b "0") [] [])) pick 0 true) = [req] /\ rq_body req <> data_of ks /\ rq_body req = chunked_text ks (s2b "0") [] [].
Proof. exact coding_list_refuted. Qed.
Print Assumptions C125_codings_refuted.

(** Two chunks, the first with an extension, a trailer and a length of 3 that contradicts
    them. *)
Example C125_case : chunk_lines_ok in_chunks signature_line /\ Forall chunk_ok two_chunks /\ last_ok (s2b "000") (s2b " ;end") /\ data_of two_chunks = s2b "MIIBxxxxxxxx" ++ [10] /\
  exists req, handled (mk_stream (own_request PATH_BRSKI_REQUESTVOUCHER in_chunks (chunked_text two_chunks (s2b "000") (s2b " ;end") signature_line) ++ s2b "rest") (fun _ => 1) 0 false) = [req] /\ rq_body req = data_of two_chunks /\ values_ci (s2b "x-sum") (rq_headers req) = [s2b "77"].
Proof.
  split; [apply in_chunks_ok; [apply Forall_cons; [apply plain_named_line; reflexivity|apply Forall_nil]|reflexivity]|]. split; [exact two_chunks_ok|]. split.
  { split; [discriminate|]. split; [repeat (apply Forall_cons; [reflexivity|]); apply Forall_nil|]. right. eexists 32, _. split; [reflexivity|]. split; [cbn; tauto|]. repeat (apply Forall_cons; [split; discriminate|]); apply Forall_nil. }
  split; [reflexivity|]. eexists. split; [vm_compute; reflexivity|]. split; vm_compute; reflexivity.
Qed.
(** The same answer, whole and cut in its last line end. *)
Example C125_case_answer : let a := answer_text 200 (s2b "Fine") in_chunks (chunked_text two_chunks (s2b "0") [] signature_line) in
  client_reply (mk_stream a (fun _ => 7) 0 true) = Replied 200 (data_of two_chunks) /\ client_reply (mk_stream (firstn (List.length a - 1) a) (fun _ => 7) 0 true) = Failed.
Proof. vm_compute. split; reflexivity. Qed.
