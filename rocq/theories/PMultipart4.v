(** Proofs: what a request with a content in parts leaves on its connection. *)
From Coq Require Import ZifyBool ZifyNat ZifyN.
From Verif Require Import Base PBase MSerialize MHttp SHttp PHttp MTls MWire MRange SWire PWire PWire2 PWire3 PWire4 PWire5 PWire6 PWire7 PWire8 SLength PLength MMultipart SMultipart PMultipart PHeadLines PMultipart2 PMultipart3.
Open Scope N_scope.

(** The other requests are as before. *)
Theorem any_turn_ranged bd cn sv close s : ranged_turn bd cn sv close s <> Elsewhere -> any_turn bd cn sv close s = ranged_turn bd cn sv close s.
Proof.
  unfold any_turn, ranged_turn. destruct (getline s) as [[line|] s1]; [|reflexivity]. destruct (MAX_LENGTH <? blen line); [reflexivity|].
  destruct (negb (rl_ok (parse_request_line (upto_nul line)))); [reflexivity|]. destruct (read_headers s1) as [[ok hs] s2]. destruct (negb ok); [reflexivity|]. cbv zeta.
  destruct (if mm_has (s2b "Range") (add_addresses cn hs) then _ else _) as [fine rs]. destruct (negb fine); [reflexivity|]. unfold any_content.
  destruct (expects_content _ && has_prefix (s2b "multipart/form-data") _); [congruence|reflexivity].
Qed.
Theorem any_turn_somewhere bd cn sv close s : any_turn bd cn sv close s <> Elsewhere.
Proof.
  unfold any_turn. destruct (getline s) as [[line|] s1]; [|discriminate]. destruct (MAX_LENGTH <? blen line); [destruct (read_headers s1) as [[? ?] ?]; discriminate|].
  destruct (negb (rl_ok (parse_request_line (upto_nul line)))); [discriminate|]. destruct (read_headers s1) as [[ok hs] s2]. destruct (negb ok); [discriminate|]. cbv zeta.
  destruct (if mm_has (s2b "Range") (add_addresses cn hs) then _ else _) as [fine rs]. destruct (negb fine); [discriminate|]. destruct (any_content _ _ _) as [[body hs2|z hs2] s3]; [|discriminate].
  destruct (ranged_response _ _ _). discriminate.
Qed.

Lemma into_bytes b : forall fuel left p s p' s', length_into fuel left b p s = (true, p', s') -> exists x, st_data s = x ++ st_data s' /\ blen x = left.
Proof.
  induction fuel as [|fuel IH]; intros left p s p' s'; cbn [length_into]; destruct (N.eqb_spec left 0) as [->|NZ]; try discriminate; try (intro E; injection E as _ <-; exists []; split; reflexivity).
  destruct (st_data s) as [|d0 d] eqn:D.
  - unfold read. rewrite D. destruct (st_closed s); discriminate.
  - destruct (read_some (N.min left 4096) s d0 d (st_closed s) (conj D eq_refl) ltac:(lia)) as (k & s1 & K1 & K2 & RD & [H1 _]). rewrite RD. destruct (parse_part b (firstn k (d0 :: d)) p) as [p1 ok]. destruct ok; [|discriminate].
    intro E. apply IH in E as (x & E & L). exists (firstn k (d0 :: d) ++ x). rewrite <- app_assoc, <- E, H1, firstn_skipn. split; [reflexivity|]. rewrite blen_app, L. unfold blen. rewrite firstn_length. cbn [List.length]. lia.
Qed.
Lemma parsed_more k l h : incl (values_ci k h) (values_ci k (add_parsed l h)).
Proof.
  intros x I. unfold add_parsed. destruct (parse_header l) as [[a y]|]; [|exact I]. unfold values_ci in *. apply in_map_iff in I as (e & <- & I).
  apply in_map. apply filter_In in I as [I1 I2]. apply filter_In. split; [|exact I2]. apply emplace_in. right. exact I1.
Qed.
Lemma trailers_more k : forall fuel h l0 s0 ok0 h0 s9, trailers fuel h l0 s0 = (ok0, h0, s9) -> incl (values_ci k h) (values_ci k h0).
Proof.
  induction fuel as [|fuel IH]; intros h l0 s0 ok0 h0 s9; cbn [trailers]; (destruct (beqb (upto_nul l0) CRLF); [intro E; injection E as _ <- _; apply incl_refl|]);
    (destruct (MAX_LENGTH <? blen l0); [intro E; injection E as _ <- _; apply incl_refl|]).
  - intro E; injection E as _ <- _; apply incl_refl.
  - cbv zeta. destruct (getline s0) as [[l|] s5]; [intro E; apply IH in E; eapply incl_tran; [apply parsed_more|exact E]|intro E; injection E as _ <- _; apply parsed_more].
Qed.
Lemma chunks_more k b : forall fuel h p s0 ok0 p0 h0 s9, chunks_into fuel b h p s0 = (ok0, p0, h0, s9) -> incl (values_ci k h) (values_ci k h0).
Proof.
  induction fuel as [|fuel IH]; intros h p s0 ok0 p0 h0 s9; cbn [chunks_into]; [intro E; injection E as _ _ <- _; apply incl_refl|].
  destruct (getline s0) as [[l|] s5]; [|intro E; injection E as _ _ <- _; apply incl_refl]. destruct (strtoul 16 (upto_nul l)) as [len number].
  destruct (negb number || (len =? ULONG_MAX)); [intro E; injection E as _ _ <- _; apply incl_refl|]. destruct (len =? 0).
  - destruct (getline s5) as [[l2|] s6]; [|intro E; injection E as _ _ <- _; apply incl_refl]. destruct (trailers (List.length (st_data s6)) h l2 s6) as [[o t] s7] eqn:TR.
    intro E. injection E as _ _ <- _. eapply trailers_more. exact TR.
  - destruct (length_into (S (List.length (st_data s5))) len b p s5) as [[o a] s6]. destruct (negb o); [intro E; injection E as _ _ <- _; apply incl_refl|].
    destruct (getline s6) as [[l2|] s7]; [|intro E; injection E as _ _ <- _; apply incl_refl]. destruct (beqb (upto_nul l2) CRLF); [apply IH|intro E; injection E as _ _ <- _; apply incl_refl].
Qed.

Lemma form_bytes hs s ps hs' s' t r : read_form (s2b "POST") hs s = (Form ps hs', s') -> values_ci (s2b "Transfer-Encoding") hs' = [] -> values_ci (s2b "Content-Length") hs' = t :: r -> digits_text t ->
  blen (st_data s) < ULONG_MAX -> exists content, st_data s = content ++ st_data s' /\ blen content = decimal t /\ hs' = hs.
Proof.
  intros E T V D L. revert E. unfold read_form. destruct (parse_boundary _) as [b|]; [|discriminate]. change (beqb (s2b "POST") (s2b "DELETE")) with false. cbn [andb]. destruct (_ || _ || _); [discriminate|].
  destruct (same_ignoring_case (header_value (s2b "Transfer-Encoding") hs) (s2b "chunked")) eqn:CH.
  - destruct (chunks_into _ b hs new_parser s) as [[[ok p] h] s1] eqn:CK. destruct (ok && ps_valid p); [|discriminate]. intro E. injection E as _ -> _. exfalso.
    apply (chunks_more (s2b "Transfer-Encoding")) in CK. rewrite T in CK. rewrite header_value_ci in CH. destruct (values_ci (s2b "Transfer-Encoding") hs) as [|v vs]; [discriminate CH|]. exact (CK v (or_introl eq_refl)).
  - destruct (negb (mm_has (s2b "Content-Length") hs)) eqn:HL.
    + destruct (rest_into _ b new_parser s) as [[ok p] s1]. destruct (ok && ps_valid p); [|discriminate]. intro E. injection E as _ -> _. rewrite mm_has_ci, V in HL. discriminate HL.
    + destruct (length_into _ _ b new_parser s) as [[ok p] s1] eqn:LI. destruct ok; [|discriminate]. destruct (ps_valid p); [|discriminate]. cbn [andb]. intro E. injection E as _ <- <-.
      apply into_bytes in LI as (x & LI & LX). exists x. split; [exact LI|]. split; [|reflexivity]. rewrite header_value_ci, V, digits_upto, strtoul_decimal in LX by exact D. cbn [fst] in LX.
      rewrite LI, blen_app in L. lia.
Qed.
Lemma upto_app : forall a c, Forall (fun x => x <> 0) a -> upto_nul (a ++ c) = a ++ upto_nul c.
Proof. induction a as [|x a IH]; intros c F; [reflexivity|]. inversion F; subst. cbn [app upto_nul]. replace (x =? 0) with false by lia. rewrite IH by assumption. reflexivity. Qed.

(** A handled request in parts leaves what comes after the bytes its length tells. *)
Theorem form_framed bd cn sv close s w req again s' v vs t r : any_turn bd cn sv close s = Turn w (Some req) again s' -> rq_method req = s2b "POST" ->
  values_ci (s2b "Content-Type") (rq_headers req) = v :: vs -> is_prefix (s2b "multipart/form-data") v -> values_ci (s2b "Transfer-Encoding") (rq_headers req) = [] ->
  values_ci (s2b "Content-Length") (rq_headers req) = t :: r -> digits_text t -> blen (st_data s) < ULONG_MAX ->
  exists head content, st_data s = head ++ CRLF ++ content ++ st_data s' /\ blen content = decimal t /\ rq_body req = [].
Proof.
  unfold any_turn. destruct (getline s) as [[line|] s1] eqn:G; [|discriminate]. apply getline_head in G as [G _].
  destruct (MAX_LENGTH <? blen line); [destruct (read_headers s1) as [[a b] s2]; discriminate|].
  remember (parse_request_line (upto_nul line)) as rl. destruct (negb (rl_ok rl)); [discriminate|].
  destruct (read_headers s1) as [[ok hs] s2] eqn:H. destruct ok; cbn [negb]; [|discriminate]. apply read_headers_head in H as (u & H & _). cbv zeta.
  remember (add_addresses cn hs) as hs1. destruct (if mm_has (s2b "Range") hs1 then _ else _) as [fine rs]. destruct (negb fine); [discriminate|].
  destruct (any_content (rl_method rl) hs1 s2) as [[body hs2|z hs2] s3] eqn:AC; [|discriminate]. destruct (ranged_response sv _ rs) as [routed rr]. intro E. injection E as _ <- _ <-. cbn [rq_body rq_headers rq_method].
  intros M CT PX TE CL D L. rewrite M in AC.
  assert (L2 : blen (st_data s2) < ULONG_MAX) by (rewrite G, H, !blen_app in L; lia).
  revert AC. unfold any_content. change (expects_content (s2b "POST")) with true. cbn [andb]. destruct (has_prefix (s2b "multipart/form-data") (header_value (s2b "Content-Type") hs1)) eqn:MP.
  - destruct (read_form (s2b "POST") hs1 s2) as [[ps h|z h] s4] eqn:RF; [|discriminate]. intro E. injection E as <- <- <-.
    destruct (form_bytes hs1 s2 ps h s4 t r RF TE CL D L2) as (content & C1 & C2 & _). exists (line ++ u), content. split; [rewrite G, H, C1, <- !app_assoc; reflexivity|]. split; [exact C2|reflexivity].
  - unfold server_content. change (negb (expects_content (s2b "POST")) || _) with false. cbn iota. destruct (read_content hs1 s2) as [[bo h|z h] s4] eqn:RC; [|discriminate]. destruct (_ && _); [discriminate|].
    intro E. injection E as <- <- <-. exfalso. pose proof (content_coding _ _ _ _ _ RC TE) as T1. destruct (content_bytes hs1 s2 bo h s4 T1 RC) as (E1 & _). subst h.
    rewrite header_value_ci, CT in MP. destruct PX as [q ->]. rewrite upto_app in MP by (apply Forall_forall; intros c I; vm_compute in I; repeat (destruct I as [<-|I]; [lia|]); destruct I).
    rewrite prefix_app in MP. discriminate MP.
Qed.

(** ** Findings *)
Definition handled_any (s : stream) : list request := snd (any_serve (fun _ => s2b "parts") 5 some_conn quiet_server s).
Definition the_voucher_request : request := arrived (s2b "masa") 443 PATH_BRSKI_REQUESTVOUCHER (s2b "application/voucher-cms+json") (s2b "MIIB") some_conn.
(** Without a boundary the content is not read and is the next request. *)
Theorem no_boundary_refuted : exists head body pick, one_message head body (text head ++ CRLF ++ body) /\ hd_error head = Some (s2b "POST /.well-known/brski/requestvoucher HTTP/1.1") /\ In (s2b "Content-Type: multipart/form-data") head /\
  handled_any (mk_stream (text head ++ CRLF ++ body) pick 0 false) = [the_voucher_request].
Proof.
  exists [s2b "POST /.well-known/brski/requestvoucher HTTP/1.1"; s2b "Content-Type: multipart/form-data"; s2b "Content-Length: " ++ dec_digits (blen (ask_voucher (s2b "MIIB")))], (ask_voucher (s2b "MIIB")), (fun _ => 1).
  split; [split; [reflexivity|]; split; [apply lines_good; vm_compute; reflexivity|right; right; left; reflexivity]|]. split; [reflexivity|]. split; [right; left; reflexivity|]. vm_compute. reflexivity.
Qed.
(** After a part that is not valid the bytes that came later are the next request. *)
Theorem bad_part_refuted : exists head first pick, let body := first ++ ask_voucher (s2b "MIIB") in one_message head body (text head ++ CRLF ++ body) /\ In (s2b "Content-Type: multipart/form-data; boundary=xyz") head /\
  first = s2b "--xyz" ++ CRLF ++ s2b "X" ++ CRLF /\ handled_any (mk_stream (text head ++ CRLF ++ body) pick 0 false) = [the_voucher_request].
Proof.
  set (first := s2b "--xyz" ++ CRLF ++ s2b "X" ++ CRLF).
  exists [s2b "POST / HTTP/1.1"; s2b "Content-Type: multipart/form-data; boundary=xyz"; s2b "Content-Length: " ++ dec_digits (blen (first ++ ask_voucher (s2b "MIIB")))], first, (fun _ => 10).
  split; [split; [reflexivity|]; split; [apply lines_good; vm_compute; reflexivity|right; right; left; reflexivity]|]. split; [right; left; reflexivity|]. split; [reflexivity|]. vm_compute. reflexivity.
Qed.
(** The same bytes are a form or not, as they arrive: the first line must come at once. *)
Definition some_form : list field := [([LName (s2b "serial"); LType (s2b "text/plain")], s2b "12345"); ([LOther (s2b "X-Sum") (s2b "7"); LParams [(s2b "filename", s2b "a.txt")] (s2b "note") [(s2b "name", s2b "x")]], CRLF ++ s2b "--xy" ++ [0; 255])].
Definition form_head (body : bytes) : list bytes := [s2b "POST / HTTP/1.1"; s2b "Content-Type: multipart/form-data; boundary=xyz"; s2b "Content-Length: " ++ dec_digits (blen body)].
Lemma some_form_ok : boundary_ok (s2b "xyz") /\ Forall (part_ok (s2b "xyz")) some_form.
Proof.
  assert (C : forall t, forallb (fun c => ((48 <=? c) && (c <=? 57)) || ((97 <=? c) && (c <=? 122))) t = true -> Forall boundary_char t).
  { intros t H. rewrite forallb_forall in H. apply Forall_forall. intros c I. specialize (H c I). unfold boundary_char. lia. }
  assert (NP : forall p t, place_of p t = List.length t -> p <> [] -> ~ part_of p t).
  { intros p t H N (a & d & ->). revert H. induction a as [|y a IH]; cbn [app].
    - destruct p as [|z p]; [congruence|]. cbn [app place_of]. change (z :: p ++ d) with ((z :: p) ++ d). rewrite prefix_app. discriminate.
    - cbn [place_of List.length]. destruct (has_prefix p _); [discriminate|]. intro H. injection H as H. exact (IH H). }
  split; [split; [discriminate|split; [apply C; reflexivity|vm_compute; discriminate]]|].
  assert (FO : forall n, n <> [] -> forallb (fun c => ((48 <=? c) && (c <=? 57)) || ((97 <=? c) && (c <=? 122))) n = true -> blen n <= 4000 -> field_ok n) by (intros n N0 F L; split; [exact N0|split; [apply C; exact F|exact L]]).
  assert (K : forall x, Forall head_line_ok (fst x) -> place_of (between (s2b "xyz")) (snd x) = List.length (snd x) -> part_ok (s2b "xyz") x) by (intros x F P; split; [exact F|apply NP; [exact P|discriminate]]).
  apply Forall_cons; [|apply Forall_cons; [|apply Forall_nil]]; (apply K; [|vm_compute; reflexivity]); (apply Forall_cons; [|apply Forall_cons; [|apply Forall_nil]]); cbn [head_line_ok].
  - apply FO; [discriminate|reflexivity|vm_compute; discriminate].
  - split; [apply plain_valueb_ok; reflexivity|vm_compute; discriminate].
  - split; [apply plain_nameb_ok; reflexivity|]. split; [apply plain_valueb_ok; reflexivity|]. split; [vm_compute; discriminate|]. split; vm_compute; discriminate.
  - split; [apply FO; [discriminate|reflexivity|vm_compute; discriminate]|]. split; [|split; [apply Forall_cons; [discriminate|apply Forall_nil]|vm_compute; discriminate]]. apply Forall_cons; [|apply Forall_cons; [|apply Forall_nil]]; (split; [discriminate|split; [apply C; reflexivity|apply Forall_forall; intros c I; vm_compute in I; unfold boundary_char; repeat (destruct I as [<-|I]; [lia|]); destruct I]]).
Qed.
Theorem cut_form_refuted : exists b l p1 p2 q, boundary_ok b /\ Forall (part_ok b) l /\ let data := text (form_head (form_text b l)) ++ CRLF ++ form_text b l in
  handled_any (mk_stream data p1 0 false) = [q] /\ handled_any (mk_stream data p2 0 false) = [].
Proof.
  eexists (s2b "xyz"), some_form, (fun _ => 7), (fun _ => 6), _. split; [exact (proj1 some_form_ok)|]. split; [exact (proj2 some_form_ok)|]. cbv zeta. split; vm_compute; reflexivity.
Qed.
(** So is a form with a text after its last line: it must come with that line. *)
Theorem late_text_refuted : exists b l p1 p2 q, boundary_ok b /\ Forall (part_ok b) l /\ let body := form_text b l ++ s2b "end of the form" ++ CRLF in let data := text (form_head body) ++ CRLF ++ body in
  handled_any (mk_stream data p1 0 false) = [q] /\ handled_any (mk_stream data p2 0 false) = [].
Proof.
  eexists (s2b "xyz"), some_form, (fun _ => 4096), (fun _ => blen (form_text (s2b "xyz") some_form) - 2), _. split; [exact (proj1 some_form_ok)|]. split; [exact (proj2 some_form_ok)|]. cbv zeta. split; vm_compute; reflexivity.
Qed.
