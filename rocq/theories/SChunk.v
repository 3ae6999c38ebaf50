(** Messages sent in chunks (RFC 9112, section 7.1). *)
From Verif Require Import Base MSerialize MHttp SHttp MTls MWire SWire.
Open Scope N_scope.

(** Sizes are hexadecimal, in capital or small letters, with any leading zeros. *)
Definition hex_digit (c : N) : Prop := 48 <= c <= 57 \/ 65 <= c <= 70 \/ 97 <= c <= 102.
Definition hex_digit_value (c : N) : N := if c <=? 57 then c - 48 else if c <=? 70 then c - 55 else c - 87.
Definition hex_read (t : bytes) : N := fold_left (fun n c => 16 * n + hex_digit_value c) t 0.
(** What may follow a size on its line: a blank or a semicolon and more. *)
Definition extension_ok (e : bytes) : Prop := e = [] \/ exists c r, e = c :: r /\ In c [9; 32; 59] /\ Forall (fun c => c <> 0 /\ c <> 10) r.
Record chunk := mk_chunk { ck_size : bytes; ck_extension : bytes; ck_data : bytes }.
Definition chunk_ok (k : chunk) : Prop :=
  ck_size k <> [] /\ Forall hex_digit (ck_size k) /\ extension_ok (ck_extension k) /\ hex_read (ck_size k) = blen (ck_data k) /\ 0 < blen (ck_data k) < 18446744073709551615.
Definition chunk_text (k : chunk) : bytes := ck_size k ++ ck_extension k ++ CRLF ++ ck_data k ++ CRLF.
(** The last chunk has the size 0; header lines may follow it. *)
Definition last_ok (size extension : bytes) : Prop := size <> [] /\ Forall (fun c => c = 48) size /\ extension_ok extension.
Definition chunked_text (ks : list chunk) (size extension : bytes) (trailer : list (bytes * bytes)) : bytes :=
  flat_map chunk_text ks ++ size ++ extension ++ CRLF ++ write_headers trailer.
Definition data_of (ks : list chunk) : bytes := flat_map ck_data ks.

(** Plain lines that announce chunks; a length may be told as well. *)
Definition chunk_lines_ok (lines trailer : list (bytes * bytes)) : Prop :=
  Forall plain_line (lines ++ trailer) /\ (exists v, values_ci (s2b "Transfer-Encoding") lines = [v] /\ same_name v (s2b "chunked")) /\
  values_ci (s2b "Content-Encoding") lines = [] /\ values_ci (s2b "Range") lines = [] /\
  Forall (fun v => ~ is_prefix (s2b "multipart/form-data") v /\ ~ is_prefix (s2b "application/x-www-form-urlencoded") v) (values_ci (s2b "Content-Type") (lines ++ trailer)).
(** An answer of another server. *)
Definition answer_text (st : Z) (reason : bytes) (lines : list (bytes * bytes)) (body : bytes) : bytes :=
  s2b "HTTP/1.1 " ++ dec_digits (Z.to_N st) ++ s2b " " ++ reason ++ CRLF ++ write_headers lines ++ body.
