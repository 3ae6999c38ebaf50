(** Property theorem C138: the answer of the server, byte for byte. *)
From Coq Require Import Lia.
From Verif Require Import Base MHttp MWire SWire PHttp PWire2 PWire3 PWire8 SWireText SAnswerText PAnswerText.
Open Scope N_scope.

(** C138. The second content type of an error (C77) is part of the text. *)
Theorem C138_text : forall cn sv sp host port path ctype body st actype abody,
  destination_ok host port -> type_ok ctype -> plain_path path -> blen body <= SIZE_MAX -> conn_ok cn -> plain_value actype -> (100 <= st <= 999)%Z ->
  first_answers (sv_post sv) (arrived host port path ctype body cn) st actype abody ->
  exists status reason len types b, decimal_of (Z.to_N st) status /\ reason_of st reason /\ decimal_of (blen b) len /\ all_types st actype types /\ full_body st abody b /\
    connection cn sv (mk_stream (client_request host port path ctype body) sp 0 false) = (answer_text status reason len types b, [arrived host port path ctype body cn], true).
Proof. exact answer_text_of. Qed.
Print Assumptions C138_text.

Example C138_ready : destination_ok (s2b "masa") 443 /\ plain_path (s2b "/a") /\ type_ok (s2b "text/plain") /\ conn_ok some_conn /\ plain_value (s2b "text/plain") /\
  first_answers (sv_post (answering 404 [])) (arrived (s2b "masa") 443 (s2b "/a") (s2b "text/plain") [1] some_conn) 404 (s2b "text/plain") [].
Proof.
  split; [split; [apply plain_valueb_ok; reflexivity|split; [vm_compute; discriminate|lia]]|].
  split; [split; [discriminate|split; [|vm_compute; discriminate]]|].
  { change (s2b "/a") with [47; 97]. repeat (constructor; [split; [lia|intros I; cbn in I; lia]|]). constructor. }
  split; [split; [apply plain_valueb_ok; reflexivity|split; [vm_compute; discriminate|split; intros [r E]; discriminate]]|].
  split; [split; apply crlf_sendable; reflexivity|]. split; [apply plain_valueb_ok; reflexivity|].
  eexists [], _, _, []. split; [reflexivity|]. split; [constructor|]. split; reflexivity.
Qed.
Example C138_case : forall sp, sp = (fun n => N.of_nat n) ->
  fst (fst (connection some_conn (answering 404 []) (mk_stream (client_request (s2b "masa") 443 (s2b "/a") (s2b "text/plain") [1]) sp 0 false))) =
  s2b "HTTP/1.1 404 Not Found" ++ [13; 10] ++ s2b "Connection: close" ++ [13; 10] ++ s2b "Content-Length: 12" ++ [13; 10] ++
  s2b "Content-Type: text/plain" ++ [13; 10] ++ s2b "Content-Type: text/plain" ++ [13; 10; 13; 10] ++ s2b "Router error".
Proof. intros sp ->. vm_compute. reflexivity. Qed.

(** C138: no handler for the path. *)
Theorem C138_unmatched : forall cn sv sp host port path ctype body,
  destination_ok host port -> type_ok ctype -> plain_path path -> blen body <= SIZE_MAX -> conn_ok cn -> none_for (sv_post sv) (arrived host port path ctype body cn) ->
  connection cn sv (mk_stream (client_request host port path ctype body) sp 0 false) =
    (answer_text (s2b "404") (s2b "Not Found") (s2b "12") [s2b "text/plain"] (s2b "Router error"), [arrived host port path ctype body cn], true).
Proof. exact unmatched_text_of. Qed.
Print Assumptions C138_unmatched.

Example C138_unmatched_case : none_for (sv_post (answering 200 [])) (arrived (s2b "masa") 443 (s2b "/b") (s2b "text/plain") [1] some_conn).
Proof. constructor; [reflexivity|constructor]. Qed.

(** C138: the handler throws. *)
Theorem C138_thrown : forall cn sv sp host port path ctype body what,
  destination_ok host port -> type_ok ctype -> plain_path path -> blen body <= SIZE_MAX -> conn_ok cn -> first_throws (sv_post sv) (arrived host port path ctype body cn) what ->
  exists t b len, thrown_text what t /\ full_body 505 t b /\ decimal_of (blen b) len /\
  connection cn sv (mk_stream (client_request host port path ctype body) sp 0 false) =
    (answer_text (s2b "505") (s2b "HTTP Version Not Supported") len [s2b "text/plain"; s2b "text/plain"] b, [arrived host port path ctype body cn], true).
Proof. exact thrown_text_of. Qed.
Print Assumptions C138_thrown.

Example C138_thrown_case : let sv := mk_server [] [(fun _ => true, fun _ _ => Throws (Some (s2b "bad" ++ [0; 7])))] [] [] [] [] in
  first_throws (sv_post sv) (arrived (s2b "masa") 443 (s2b "/b") (s2b "text/plain") [1] some_conn) (Some (s2b "bad" ++ [0; 7])) /\ thrown_text (Some (s2b "bad" ++ [0; 7])) (s2b "bad").
Proof.
  split; [eexists [], _, _, []; split; [reflexivity|]; split; [constructor|]; split; reflexivity|].
  exists (s2b "bad"), [0; 7]. split; [reflexivity|]. split; [repeat constructor; discriminate|]. split; [right; exists [7]; reflexivity|]. left. split; [vm_compute; discriminate|reflexivity].
Qed.
