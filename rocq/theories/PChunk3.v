(** What goes wrong with messages in chunks. *)
From Coq Require Import ZifyBool ZifyNat ZifyN Sorted.
From Verif Require Import Base PBase MSerialize MHttp SHttp PHttp PHttp2 MTls MWire SWire PWire PWire2 PWire3 PWire4 PWire5 PWire6 PWire7 PWire8 SChunk PChunk PChunk2.
Open Scope N_scope.

Definition in_chunks : list (bytes * bytes) := [(s2b "Transfer-Encoding", s2b "Chunked"); (s2b "Content-Type", s2b "application/voucher-cms+json"); (s2b "Content-Length", s2b "3")].
Definition two_chunks : list chunk := [mk_chunk (s2b "03") (s2b ";a=b") (s2b "MII"); mk_chunk (s2b "a") [] (s2b "Bxxxxxxxx" ++ [10])].
Definition signature_line : list (bytes * bytes) := [(s2b "X-Sum", s2b "77")].
Lemma plain_named_line k v : plain_nameb k && plain_valueb v && (blen k + blen v + 4 <=? 8192) = true -> plain_line (k, v).
Proof. intro H. apply andb_prop in H as [H C]. apply andb_prop in H as [A B]. split; [apply plain_nameb_ok, A|]. split; [apply plain_valueb_ok, B|]. cbn [fst snd]. lia. Qed.
Lemma in_chunks_ok tr : Forall plain_line tr -> values_ci (s2b "Content-Type") tr = [] -> chunk_lines_ok in_chunks tr.
Proof.
  intros F V. split; [apply Forall_app; split; [repeat (apply Forall_cons; [apply plain_named_line; reflexivity|]); apply Forall_nil|exact F]|]. split; [exists (s2b "Chunked"); split; reflexivity|]. split; [reflexivity|]. split; [reflexivity|].
  rewrite values_ci_app, V, app_nil_r. apply Forall_cons; [|apply Forall_nil]. split; intros [r E]; discriminate E.
Qed.
Lemma hexes t : forallb (fun c => ((48 <=? c) && (c <=? 57)) || ((65 <=? c) && (c <=? 70)) || ((97 <=? c) && (c <=? 102))) t = true -> Forall hex_digit t.
Proof. intro H. rewrite forallb_forall in H. apply Forall_forall. intros c I. specialize (H c I). unfold hex_digit. lia. Qed.
Lemma two_chunks_ok : Forall chunk_ok two_chunks.
Proof.
  apply Forall_cons.
  - split; [discriminate|]. split; [apply hexes; reflexivity|]. split; [right; eexists 59, _; split; [reflexivity|split; [cbn; tauto|repeat (apply Forall_cons; [split; discriminate|]); apply Forall_nil]]|]. split; [reflexivity|split; reflexivity].
  - apply Forall_cons; [|apply Forall_nil]. split; [discriminate|]. split; [apply hexes; reflexivity|]. split; [left; reflexivity|]. split; [reflexivity|split; reflexivity].
Qed.

Lemma size_refuted : exists size data pick req, size = s2b "0x4" /\ ~ Forall hex_digit size /\ data <> [] /\ rq_body req = data /\
  handled (mk_stream (own_request PATH_BRSKI_REQUESTVOUCHER in_chunks (size ++ CRLF ++ data ++ CRLF ++ s2b "0" ++ CRLF ++ CRLF)) pick 0 false) = [req].
Proof.
  exists (s2b "0x4"), (s2b "MIIB"), (fun _ => 1). eexists. split; [reflexivity|]. split; [intro F; assert (Q : hex_digit 120) by (apply Forall_inv_tail, Forall_inv in F; exact F); unfold hex_digit in Q; lia|]. split; [discriminate|]. split; [|vm_compute; reflexivity]. reflexivity.
Qed.
Lemma trailer_refuted : exists lines ks trailer pick req, values_ci (s2b "Content-Type") lines = [] /\ Forall chunk_ok ks /\
  handled (mk_stream (own_request PATH_BRSKI_REQUESTVOUCHER lines (chunked_text ks (s2b "0") [] trailer)) pick 0 false) = [req] /\
  values_ci (s2b "Content-Type") (rq_headers req) = [s2b "application/voucher-cms+json"].
Proof.
  exists [(s2b "Transfer-Encoding", s2b "chunked")], two_chunks, [(s2b "Content-Type", s2b "application/voucher-cms+json")], (fun _ => 1). eexists. split; [reflexivity|]. split; [exact two_chunks_ok|]. split; vm_compute; reflexivity.
Qed.
Lemma coding_list_refuted : exists lines ks pick req, values_ci (s2b "Transfer-Encoding") lines = [s2b "identity, chunked"] /\ Forall chunk_ok ks /\
  handled (mk_stream (own_request PATH_BRSKI_REQUESTVOUCHER lines (chunked_text ks (s2b "0") [] [])) pick 0 true) = [req] /\ rq_body req <> data_of ks /\ rq_body req = chunked_text ks (s2b "0") [] [].
Proof.
  exists [(s2b "Transfer-Encoding", s2b "identity, chunked")], two_chunks, (fun _ => 1). eexists. split; [reflexivity|]. split; [exact two_chunks_ok|]. split; [vm_compute; reflexivity|]. split; vm_compute; [discriminate|reflexivity].
Qed.
