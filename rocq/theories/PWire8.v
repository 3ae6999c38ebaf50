(** Requests of other programs, and what goes wrong on the wire. *)
From Coq Require Import ZifyBool ZifyNat ZifyN Sorted.
From Verif Require Import Base PBase MSerialize MHttp SHttp PHttp PHttp2 MTls MWire SWire PWire PWire2 PWire3 PWire4 PWire5 PWire6 PWire7.
Open Scope N_scope.

Ltac own_value := rewrite arriving_values, values_ci_app; match goal with |- ?a ++ values_ci ?k (conn_lines ?cn) = _ => change (values_ci k (conn_lines cn)) with (@nil bytes) end; rewrite app_nil_r.

Lemma own_arrives cn sv close s path lines body more c : plain_path path -> own_lines_ok lines (blen body) -> blen body <= SIZE_MAX -> conn_ok cn ->
  holds (own_request path lines body ++ more) c s ->
  exists w again s', process_turn cn sv close s = Turn w (Some (mk_request (s2b "POST") path (arriving (lines ++ conn_lines cn)) body)) again s' /\ holds more c s'.
Proof.
  intros P (PL & VL & VE & VT & VR & VC) B C H. unfold process_turn. unfold own_request in H.
  replace ((s2b "POST " ++ encode_url path ++ s2b " HTTP/1.1" ++ CRLF ++ write_headers lines ++ body) ++ more)
    with ((request_text path ++ [13]) ++ 10 :: (write_headers lines ++ (body ++ more))) in H by (unfold request_text; rewrite <- !app_assoc; reflexivity).
  assert (EU : encode_url path = flat_map encode_char path) by (unfold encode_url; rewrite path_nul by apply P; reflexivity).
  destruct P as (P0 & PC & PL0).
  assert (NLF : Forall (fun x => x <> 10) (request_text path ++ [13])).
  { unfold request_text. rewrite EU. rewrite !Forall_app; repeat split; try (repeat constructor; discriminate); apply enc_no; [exact PC|tauto]. }
  assert (NUL : Forall (fun x => x <> 0) (request_text path ++ CRLF)).
  { unfold request_text. rewrite EU. rewrite !Forall_app; repeat split; try (repeat constructor; discriminate); apply enc_no; [exact PC|tauto]. }
  destruct (getline_line s _ _ c H NLF) as (s1 & G & H1). rewrite G. clear G H.
  replace ((request_text path ++ [13]) ++ [10]) with (request_text path ++ CRLF) by (rewrite <- app_assoc; reflexivity).
  assert (LL : blen (request_text path ++ CRLF) <= MAX_LENGTH).
  { unfold request_text. rewrite EU, !blen_app. change (blen (s2b "POST ")) with 5. change (blen (s2b " HTTP/1.1")) with 9. change (blen CRLF) with 2.
    pose proof (encoded_length path) as Q. unfold blen, MAX_LENGTH in *. lia. }
  replace (MAX_LENGTH <? blen (request_text path ++ CRLF)) with false by lia.
  rewrite (upto_nul_plain _ NUL), parse_request by (split; [exact P0|split; [exact PC|exact PL0]]). cbn [rl_ok rl_method rl_path rl_version negb].
  destruct (usual_headers s1 lines (body ++ more) c (Forall_impl usual_line (fun e (Q : plain_line e) => or_introl Q) PL) H1) as (s2 & G & H2). rewrite G. clear G H1.
  cbn [negb]. rewrite (tells_plain lines PL). rewrite add_addresses_lines by exact C. cbv zeta.
  remember (arriving (lines ++ conn_lines cn)) as hs eqn:EH.
  assert (HR : mm_has (s2b "Range") hs = false) by (subst hs; rewrite mm_has_ci; replace (values_ci (s2b "Range") (arriving (lines ++ conn_lines cn))) with (@nil bytes); [reflexivity|symmetry; own_value; exact VR]).
  rewrite HR. change (expects_content (s2b "POST")) with true. cbn [andb].
  assert (HT : has_prefix (s2b "multipart/form-data") (header_value (s2b "Content-Type") hs) = false /\ has_prefix (s2b "application/x-www-form-urlencoded") (header_value (s2b "Content-Type") hs) = false).
  { rewrite header_value_ci. assert (E : values_ci (s2b "Content-Type") hs = values_ci (s2b "Content-Type") lines) by (subst hs; own_value; reflexivity). rewrite E.
    destruct (values_ci (s2b "Content-Type") lines) as [|v r] eqn:V; [split; reflexivity|]. destruct (VC v r eq_refl) as [V1 V2].
    assert (PV : plain_value v).
    { assert (I : In v (values_ci (s2b "Content-Type") lines)) by (rewrite V; left; reflexivity). unfold values_ci in I. apply in_map_iff in I as (e & <- & I). apply filter_In in I as [I _]. rewrite Forall_forall in PL. apply PL, I. }
    destruct (value_sendable _ (plain_value_chars _ PV)) as [_ ->].
    split; match goal with |- ?b = false => destruct b eqn:M; [apply prefix_iff in M; contradiction|reflexivity] end. }
  destruct HT as [HT1 HT2]. rewrite HT1.
  remember (if beqb (header_value (s2b "Expect") hs) (s2b "100-continue") then s2b "HTTP/1.1 100 Continue" ++ CRLF ++ CRLF else []) as first.
  unfold server_content. change (expects_content (s2b "POST")) with true. change (beqb (s2b "POST") (s2b "DELETE")) with false. cbn [negb andb orb].
  destruct (content_of_length hs s2 (body ++ more) c (blen body) [] H2) as (s3 & G & H3).
  { subst hs. own_value. exact VE. } { subst hs. own_value. exact VT. } { subst hs. own_value. exact VL. } { exact B. }
  rewrite G. replace (blen body <=? blen (body ++ more)) with true by (rewrite blen_app; lia). rewrite firstn_app_len, skipn_app_len in *. rewrite HT2. cbn [andb].
  destruct (routed_response sv (mk_request (s2b "POST") path hs body)) as [routed r]. eexists _, _, s3. split; [reflexivity|exact H3].
Qed.
(** C104: every line arrives. *)
Lemma own_lines_arrive cn sv pick path lines body more closed : plain_path path -> own_lines_ok lines (blen body) -> blen body <= SIZE_MAX -> conn_ok cn ->
  exists req, first_handled cn sv (mk_stream (own_request path lines body ++ more) pick 0 closed) req /\ rq_method req = s2b "POST" /\ rq_path req = path /\ rq_body req = body /\
    forall k, Forall (fun a => ~ same_name k a) (map s2b ["REMOTE_ADDR"; "REMOTE_PORT"; "LOCAL_ADDR"; "LOCAL_PORT"]%string) -> values_ci k (rq_headers req) = values_ci k lines.
Proof.
  intros P L B C. destruct (own_arrives cn sv false (mk_stream (own_request path lines body ++ more) pick 0 closed) path lines body more closed P L B C (conj eq_refl eq_refl)) as (w & again & s' & E & _).
  eexists. split; [exists w, again, s'; exact E|]. cbn [rq_method rq_path rq_body rq_headers]. repeat (split; [reflexivity|]).
  intros k F. rewrite arriving_values, values_ci_app. cbn [map] in F. rewrite !Forall_cons_iff in F. destruct F as (F1 & F2 & F3 & F4 & _). unfold same_name in *.
  apply beqb_neq in F1, F2, F3, F4. unfold conn_lines, address_lines. rewrite !values_ci_cons. cbn [fst snd]. rewrite F1, F2, F3, F4. apply app_nil_r.
Qed.

(** ** Witnesses *)

Definition quiet_server : server := match register_routes dot_compile no_handlers (setup_masa_routes quiet_handle) with Some (_, s) => s | None => no_handlers end.
Definition some_conn : conn := mk_conn (s2b "10.0.0.2") 40000 (s2b "10.0.0.1") 443.
Definition ask_voucher (body : bytes) : bytes := client_request (s2b "masa") 443 PATH_BRSKI_REQUESTVOUCHER (s2b "application/voucher-cms+json") body.
Definition text (lines : list bytes) : bytes := flat_map (fun l => l ++ CRLF) lines.

Lemma quiet_is : register_routes dot_compile no_handlers (setup_masa_routes quiet_handle) = Some (0%Z, quiet_server).
Proof. reflexivity. Qed.

Definition answering (st : Z) (text : bytes) : server :=
  match register_routes dot_compile no_handlers [mk_route (s2b "/a") POST (fun _ _ => Answers st plain_text text)] with Some (_, s) => s | None => no_handlers end.
(** C101: a status that has not three digits. *)
Lemma status_refuted : exists sv st hdr text sp cp, register_routes dot_compile no_handlers [mk_route (s2b "/a") POST (fun _ _ => Answers st hdr text)] = Some (0%Z, sv) /\ st = 1000%Z /\
  exchange_over some_conn sv sp cp (client_request (s2b "masa") 443 (s2b "/a") (s2b "text/plain") []) = Failed.
Proof. exists (answering 1000 (s2b "ok")), 1000%Z, plain_text, (s2b "ok"), (fun _ => 1), (fun _ => 1). repeat split; vm_compute; reflexivity. Qed.
(** C101: the text of a 204 answer. *)
Lemma no_content_refuted : exists sv hdr text sp cp, text <> [] /\ register_routes dot_compile no_handlers [mk_route (s2b "/a") POST (fun _ _ => Answers 204 hdr text)] = Some (0%Z, sv) /\
  exchange_over some_conn sv sp cp (client_request (s2b "masa") 443 (s2b "/a") (s2b "text/plain") []) = Replied 204 [].
Proof. exists (answering 204 (s2b "ok")), plain_text, (s2b "ok"), (fun _ => 1), (fun _ => 1). split; [discriminate|]. split; vm_compute; reflexivity. Qed.

(** C102: half of a voucher is taken for the whole after a failure of the connection. *)
Lemma part_taken_refuted : exists whole part pick, is_prefix part whole /\ part <> whole /\
  client_reply (mk_stream (text [s2b "HTTP/1.1 200 OK"; s2b "Content-Type: application/voucher-cms+json"; []] ++ part) pick 0 false) = Replied 200 part /\
  client_reply (mk_stream (text [s2b "HTTP/1.1 200 OK"; s2b "Content-Type: application/voucher-cms+json"; []] ++ whole) pick 0 true) = Replied 200 whole.
Proof.
  exists (s2b "MIIBhg=="), (s2b "MIIB"), (fun _ => 3). split; [exists (s2b "hg=="); reflexivity|]. split; [discriminate|]. split; vm_compute; reflexivity.
Qed.
(** C102: the handler runs on half of a request without a length. *)
Lemma part_handled_refuted : exists whole part pick req, is_prefix part whole /\ part <> whole /\ rq_body req = part /\
  first_handled some_conn quiet_server (mk_stream (text [s2b "POST /.well-known/brski/requestvoucher HTTP/1.1"; s2b "Host: masa"; []] ++ part) pick 0 false) req.
Proof.
  eexists (s2b "MIIBhg=="), (s2b "MIIB"), (fun _ => 3), _. split; [exists (s2b "hg=="); reflexivity|]. split; [discriminate|]. split; [|eexists _, _, _; vm_compute; reflexivity]. reflexivity.
Qed.

Lemma lines_good head : forallb (fun l => negb (beqb l []) && forallb (fun c => negb (c =? 10) && negb (c =? 13)) l) head = true -> Forall (fun l => l <> [] /\ Forall (fun c : N => c <> 10 /\ c <> 13) l) head.
Proof.
  intro H. rewrite forallb_forall in H. apply Forall_forall. intros l I. specialize (H l I). apply andb_prop in H as [A B]. apply Bool.negb_true_iff, beqb_neq in A. split; [exact A|].
  rewrite forallb_forall in B. apply Forall_forall. intros c J. specialize (B c J). lia.
Qed.
Definition handled (s : stream) : list request := snd (fst (connection some_conn quiet_server s)).

(** C103: the body of a GET is handled as a request of its own. *)
Lemma get_body_refuted : exists head body pick q, one_message head body (text head ++ CRLF ++ body) /\
  handled (mk_stream (text head ++ CRLF ++ body) pick 0 false) = [q; arrived (s2b "masa") 443 PATH_BRSKI_REQUESTVOUCHER (s2b "application/voucher-cms+json") (s2b "MIIB") some_conn].
Proof.
  eexists [s2b "GET / HTTP/1.1"; s2b "Content-Length: " ++ dec_digits (blen (ask_voucher (s2b "MIIB")))], (ask_voucher (s2b "MIIB")), (fun _ => 1), _. split.
  - split; [reflexivity|]. split; [apply lines_good; vm_compute; reflexivity|right; left; reflexivity].
  - vm_compute. reflexivity.
Qed.
(** C103: so is the body of a POST whose coding is not supported. *)
Lemma coded_body_refuted : exists head body pick, one_message head body (text head ++ CRLF ++ body) /\ hd_error head = Some (s2b "POST /.well-known/brski/requestvoucher HTTP/1.1") /\
  handled (mk_stream (text head ++ CRLF ++ body) pick 0 false) = [arrived (s2b "masa") 443 PATH_BRSKI_REQUESTVOUCHER (s2b "application/voucher-cms+json") (s2b "MIIB") some_conn].
Proof.
  exists [s2b "POST /.well-known/brski/requestvoucher HTTP/1.1"; s2b "Content-Encoding: br"; s2b "Content-Length: " ++ dec_digits (blen (ask_voucher (s2b "MIIB")))], (ask_voucher (s2b "MIIB")), (fun _ => 1). split.
  - split; [reflexivity|]. split; [apply lines_good; vm_compute; reflexivity|right; right; left; reflexivity].
  - split; [reflexivity|]. vm_compute. reflexivity.
Qed.
(** C103: of two lengths the first is believed, and the rest is a request. *)
Lemma two_lengths_refuted : exists head body pick q, one_message head body (text head ++ CRLF ++ body) /\
  handled (mk_stream (text head ++ CRLF ++ body) pick 0 false) = [q; arrived (s2b "masa") 443 PATH_BRSKI_REQUESTVOUCHER (s2b "application/voucher-cms+json") (s2b "MIIB") some_conn] /\ rq_method q = s2b "POST" /\ rq_body q = [].
Proof.
  eexists [s2b "POST / HTTP/1.1"; s2b "Content-Length: 0"; s2b "Content-Length: " ++ dec_digits (blen (ask_voucher (s2b "MIIB")))], (ask_voucher (s2b "MIIB")), (fun _ => 1), _. split.
  - split; [reflexivity|]. split; [apply lines_good; vm_compute; reflexivity|right; right; left; reflexivity].
  - split; [vm_compute; reflexivity|]. split; reflexivity.
Qed.

(** C104: a value with a percent sign is changed. *)
Lemma percent_refuted : exists lines body pick req, values_ci (s2b "Content-Type") lines = [s2b "application%2Fvoucher-cms+json"] /\
  first_handled some_conn quiet_server (mk_stream (own_request PATH_BRSKI_REQUESTVOUCHER lines body) pick 0 false) req /\
  values_ci (s2b "Content-Type") (rq_headers req) = [s2b "application/voucher-cms+json"].
Proof.
  eexists [(s2b "Content-Length", s2b "4"); (s2b "Content-Type", s2b "application%2Fvoucher-cms+json")], (s2b "MIIB"), (fun _ => 1), _. split; [reflexivity|].
  split; [eexists _, _, _; vm_compute; reflexivity|]. vm_compute. reflexivity.
Qed.
(** C104: a percent sign brings a line end into a value. *)
Lemma line_end_refuted : exists lines body pick req, Forall (fun e => Forall (fun c => c <> 10 /\ c <> 13) (fst e ++ snd e)) lines /\
  first_handled some_conn quiet_server (mk_stream (own_request PATH_BRSKI_REQUESTVOUCHER lines body) pick 0 false) req /\
  exists v, values_ci (s2b "X-Note") (rq_headers req) = [v] /\ part_of CRLF v.
Proof.
  eexists [(s2b "Content-Length", s2b "4"); (s2b "X-Note", s2b "a%0d%0aHost: b")], (s2b "MIIB"), (fun _ => 1), _. split; [repeat (constructor; [cbn; repeat (constructor; [split; discriminate|]); constructor|]); constructor|].
  split; [eexists _, _, _; vm_compute; reflexivity|]. eexists. split; [vm_compute; reflexivity|]. exists (s2b "a"), (s2b "Host: b"). reflexivity.
Qed.

(** C105: a request with an unknown method is answered once for each of its lines. *)
Lemma many_answers_refuted : exists head pick a, Forall (fun l => l <> [] /\ Forall (fun c => c <> 10 /\ c <> 13) l) head /\ List.length head = 3%nat /\
  (forall more, client_reply (mk_stream (a ++ more) pick 0 true) = Replied 400 (s2b "Router error")) /\
  exists b, connection some_conn quiet_server (mk_stream (text head ++ CRLF) pick 0 false) = (a ++ a ++ a ++ a ++ b, [], true).
Proof.
  exists [s2b "BREW / HTTP/1.1"; s2b "Host: masa"; s2b "Accept: */*"], (fun _ => 1), (server_reply false (s2b "BREW") [] false (failure 400)).
  split; [apply lines_good; reflexivity|]. split; [reflexivity|]. split.
  - intro more. destruct (not_handled_answered some_conn quiet_server false (mk_stream (s2b "BREW / HTTP/1.1" ++ CRLF) (fun _ => 1) 0 false) (server_reply false (s2b "BREW") [] false (failure 400)) true
      (snd (getline (mk_stream (s2b "BREW / HTTP/1.1" ++ CRLF) (fun _ => 1) 0 false)))) as (z & I & Q).
    + vm_compute. reflexivity.
    + intros (p & q & E). cbn in E. repeat (destruct p as [|? p]; cbn in E; [discriminate|injection E as _ E]). destruct p; discriminate.
    + assert (V : client_reply (mk_stream (server_reply false (s2b "BREW") [] false (failure 400)) (fun _ => 1) 0 true) = Replied 400 (s2b "Router error")) by (vm_compute; reflexivity).
      pose proof (Q [] (fun _ => 1) true) as Q2. rewrite app_nil_r, V in Q2. injection Q2 as <-. apply Q.
  - exists []. vm_compute. reflexivity.
Qed.
