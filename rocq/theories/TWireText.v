(** Property theorem C137: the request of the client, byte for byte. *)
From Coq Require Import Lia.
From Verif Require Import Base SSerialize MWire SWire PWire3 SWireText PWireText.
Open Scope N_scope.

(** C137. *)
Theorem C137_text : forall host port path ctype body, destination_ok host port -> plain_path path -> type_ok ctype ->
  exists target where_to len, escaped path target /\ host_text host port where_to /\ decimal_of (blen body) len /\
    client_request host port path ctype body = post_text target where_to len ctype body.
Proof. exact request_text_of. Qed.
Print Assumptions C137_text.

Example C137_case : client_request (s2b "::1") 8443 (s2b "/a b+c") (s2b "text/plain") [0; 255] =
  s2b "POST /a%20b%2Bc HTTP/1.1" ++ [13; 10] ++ s2b "Accept: */*" ++ [13; 10] ++ s2b "Connection: close" ++ [13; 10] ++ s2b "Content-Length: 2" ++ [13; 10] ++
  s2b "Content-Type: text/plain" ++ [13; 10] ++ s2b "Host: [::1]:8443" ++ [13; 10] ++ s2b "User-Agent: cpp-httplib/0.14.3" ++ [13; 10; 13; 10; 0; 255].
Proof. vm_compute. reflexivity. Qed.
Example C137_ready : destination_ok (s2b "::1") 8443 /\ plain_path (s2b "/a b+c") /\ type_ok (s2b "text/plain").
Proof.
  split; [split; [apply plain_valueb_ok; reflexivity|split; [vm_compute; discriminate|lia]]|].
  split; [split; [discriminate|split; [|vm_compute; discriminate]]|].
  { change (s2b "/a b+c") with [47; 97; 32; 98; 43; 99]. repeat (constructor; [split; [lia|intros I; cbn in I; lia]|]). constructor. }
  split; [apply plain_valueb_ok; reflexivity|split; [vm_compute; discriminate|split; intros [r E]; discriminate]].
Qed.
