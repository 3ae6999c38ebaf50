(** A request of the client arrives at the handlers as it was sent (continued). *)
From Coq Require Import ZifyBool ZifyNat ZifyN Sorted.
From Verif Require Import Base PBase MSerialize MHttp SHttp PHttp MTls MWire SWire PWire PWire2 PWire3.
Open Scope N_scope.

Lemma text_sendable z : sendable (to_text z).
Proof.
  unfold to_text. pose proof (plain_sendable _ (digits_plain (Z.to_N (Z.abs z)))) as D. pose proof (digits_digit (Z.to_N (Z.abs z))) as F.
  unfold sendable in *. destruct (z <? 0)%Z; [|exact D]. cbn [app upto_nul]. change (45 =? 0) with false. cbn iota. constructor; [split; discriminate|exact D].
Qed.
Lemma add_addresses_lines cn lines : conn_ok cn -> add_addresses cn (arriving lines) = arriving (lines ++ conn_lines cn).
Proof.
  intros [R L]. unfold add_addresses.
  rewrite (add_sendable (s2b "REMOTE_ADDR")) by (reflexivity || exact R). rewrite (add_sendable (s2b "REMOTE_PORT")) by (reflexivity || apply text_sendable).
  rewrite (add_sendable (s2b "LOCAL_ADDR")) by (reflexivity || exact L). rewrite (add_sendable (s2b "LOCAL_PORT")) by (reflexivity || apply text_sendable).
  unfold arriving. rewrite fold_left_app. reflexivity.
Qed.


Lemma tells_plain lines : Forall plain_line lines -> filter tells lines = lines.
Proof.
  induction 1 as [|e l (K & V & L) F IH]; [reflexivity|]. cbn [filter]. unfold tells at 1. apply plain_value_nonempty, beqb_neq in V. rewrite V. cbn [negb]. f_equal. exact IH.
Qed.
Lemma firstn_app_len (a b : bytes) : firstn (N.to_nat (blen a)) (a ++ b) = a.
Proof. unfold blen. rewrite Nat2N.id, firstn_app, firstn_all, Nat.sub_diag. cbn [firstn]. apply app_nil_r. Qed.
Lemma skipn_app_len (a b : bytes) : skipn (N.to_nat (blen a)) (a ++ b) = b.
Proof. unfold blen. rewrite Nat2N.id, skipn_app, skipn_all, Nat.sub_diag. reflexivity. Qed.

(** A content of known length. *)
Lemma content_of_length hs s d c n v : holds d c s -> values_ci (s2b "Content-Encoding") hs = [] -> values_ci (s2b "Transfer-Encoding") hs = [] ->
  values_ci (s2b "Content-Length") hs = dec_digits n :: v -> n <= ULONG_MAX ->
  exists s', read_content hs s = (if n <=? blen d then Content (firstn (N.to_nat n) d) hs else Refused 400 hs, s') /\ holds (skipn (N.to_nat n) d) c s'.
Proof.
  intros H E T L U. unfold read_content. rewrite !header_value_ci, mm_has_ci, E, T, L. cbn [negb].
  change (beqb [] (s2b "gzip") || beqb [] (s2b "deflate") || contains (s2b "br") []) with false.
  change (same_ignoring_case [] (s2b "chunked")) with false. cbn iota.
  destruct (value_sendable _ (plain_value_chars _ (digits_plain n))) as [_ ->]. rewrite strtoul_digits by exact U. cbn [fst].
  destruct (with_length_spec n [] s d c H) as (s' & W & H'). rewrite W. cbn [app]. exists s'. split; [|exact H']. destruct (n <=? blen d); reflexivity.
Qed.

Lemma request_arrives cn sv close s host port path ctype body more c : destination_ok host port -> type_ok ctype -> plain_path path -> blen body <= SIZE_MAX -> conn_ok cn ->
  holds (client_request host port path ctype body ++ more) c s ->
  let req := arrived host port path ctype body cn in
  exists s', process_turn cn sv close s =
    Turn (server_reply close (s2b "POST") (rq_headers req) (fst (routed_response sv req)) (snd (routed_response sv req))) (Some req) false s' /\ holds more c s'.
Proof.
  intros D T P B C H req. unfold process_turn. unfold client_request in H. rewrite client_lines in H by assumption.
  pose proof (host_line_ok host port D) as [W WL]. destruct T as (TV & TL & T1 & T2).
  pose proof (sent_lines_ok (host_line host port) ctype (blen body) W WL TV TL B) as PL.
  remember (sent_lines (host_line host port) ctype (blen body)) as lines eqn:EL.
  replace ((s2b "POST " ++ encode_url path ++ s2b " HTTP/1.1" ++ CRLF ++ write_headers lines ++ body) ++ more)
    with ((request_text path ++ [13]) ++ 10 :: (write_headers lines ++ (body ++ more))) in H by (unfold request_text; rewrite <- !app_assoc; reflexivity).
  assert (EU : encode_url path = flat_map encode_char path) by (unfold encode_url; rewrite path_nul by apply P; reflexivity).
  destruct P as (P0 & PC & PL0).
  assert (NLF : Forall (fun x => x <> 10) (request_text path ++ [13])).
  { unfold request_text. rewrite EU. rewrite !Forall_app; repeat split; try (repeat constructor; discriminate); apply enc_no; [exact PC|tauto]. }
  assert (NUL : Forall (fun x => x <> 0) (request_text path ++ CRLF)).
  { unfold request_text. rewrite EU. rewrite !Forall_app; repeat split; try (repeat constructor; discriminate); apply enc_no; [exact PC|tauto]. }
  destruct (getline_line s _ _ c H NLF) as (s1 & G & H1). rewrite G. clear G H.
  replace ((request_text path ++ [13]) ++ [10]) with (request_text path ++ CRLF) by (rewrite <- app_assoc; reflexivity).
  assert (LL : blen (request_text path ++ CRLF) <= MAX_LENGTH).
  { unfold request_text. rewrite EU, !blen_app. change (blen (s2b "POST ")) with 5. change (blen (s2b " HTTP/1.1")) with 9. change (blen CRLF) with 2.
    pose proof (encoded_length path) as Q. unfold blen, MAX_LENGTH in *. lia. }
  replace (MAX_LENGTH <? blen (request_text path ++ CRLF)) with false by lia.
  rewrite (upto_nul_plain _ NUL), parse_request by (split; [exact P0|split; [exact PC|exact PL0]]). cbn [rl_ok rl_method rl_path rl_version negb].
  destruct (usual_headers s1 lines (body ++ more) c (Forall_impl usual_line (fun e (Q : plain_line e) => or_introl Q) PL) H1) as (s2 & G & H2). rewrite G. clear G H1.
  cbn [negb]. rewrite (tells_plain lines PL). rewrite add_addresses_lines by exact C.
  assert (HC : header_value (s2b "Connection") (arriving lines) = s2b "close") by (rewrite header_value_ci, arriving_values, EL; reflexivity).
  rewrite HC. change (beqb (s2b "close") (s2b "close")) with true. cbn [orb].
  assert (HR : mm_has (s2b "Range") (arriving (lines ++ conn_lines cn)) = false) by (rewrite mm_has_ci, arriving_values, EL; reflexivity). rewrite HR.
  assert (HT : header_value (s2b "Content-Type") (arriving (lines ++ conn_lines cn)) = ctype).
  { rewrite header_value_ci, arriving_values, EL. change (values_ci (s2b "Content-Type") _) with [ctype]. cbn iota. apply value_sendable, plain_value_chars, TV. }
  rewrite HT. change (expects_content (s2b "POST")) with true.
  destruct (has_prefix (s2b "multipart/form-data") ctype) eqn:M; [apply prefix_iff in M; contradiction|]. cbn [andb].
  assert (HE : header_value (s2b "Expect") (arriving (lines ++ conn_lines cn)) = []) by (rewrite header_value_ci, arriving_values, EL; reflexivity).
  rewrite HE. change (beqb [] (s2b "100-continue")) with false. cbn iota.
  unfold server_content. change (expects_content (s2b "POST")) with true. change (beqb (s2b "POST") (s2b "DELETE")) with false. cbn [negb andb orb].
  destruct (content_of_length (arriving (lines ++ conn_lines cn)) s2 (body ++ more) c (blen body) [] H2) as (s3 & G & H3).
  { rewrite arriving_values, EL. reflexivity. } { rewrite arriving_values, EL. reflexivity. } { rewrite arriving_values, EL. reflexivity. } { exact B. }
  rewrite G. replace (blen body <=? blen (body ++ more)) with true by (rewrite blen_app; lia). rewrite firstn_app_len, skipn_app_len in *. rewrite HT.
  destruct (has_prefix (s2b "application/x-www-form-urlencoded") ctype) eqn:F; [apply prefix_iff in F; contradiction|]. cbn [andb].
  assert (RQ : mk_request (s2b "POST") path (arriving (lines ++ conn_lines cn)) body = req) by (unfold req, arrived; rewrite EL; reflexivity).
  cbv zeta. rewrite RQ. destruct (routed_response sv req) as [routed r] eqn:RR. cbn [fst snd app].
  exists s3. split; [|exact H3]. f_equal. f_equal. unfold req, arrived. cbn [rq_headers]. rewrite <- EL. reflexivity.
Qed.
