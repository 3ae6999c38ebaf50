(** Proofs: a request in parts is one request, and the next one begins behind it. *)
From Coq Require Import ZifyBool ZifyNat ZifyN Sorted.
From Verif Require Import Base PBase MSerialize MHttp SHttp PHttp PHttp2 MTls MWire MRange SWire PWire PWire2 PWire3 PWire4 PWire5 PWire6 PWire7 PWire8 SLength PLength SChunk PChunk PChunk2 MMultipart SMultipart PMultipart PHeadLines PMultipart2 PMultipart3 PMultipart6.
Open Scope N_scope.

Lemma headers_reads : forall fuel hs s ok hs' s', read_headers_loop fuel hs s = (ok, hs', s') -> st_pick s' = st_pick s /\ (st_reads s' + List.length (st_data s') = st_reads s + List.length (st_data s))%nat.
Proof.
  induction fuel as [|fuel IH]; intros hs s ok hs' s'; cbn [read_headers_loop]; [intro E; injection E as _ _ <-; split; reflexivity|].
  destruct (getline s) as [[l|] s1] eqn:G; apply getline_reads in G as [G1 G2]; [|intro E; injection E as _ _ <-; split; assumption].
  assert (K : forall h, read_headers_loop fuel h s1 = (ok, hs', s') -> st_pick s' = st_pick s /\ (st_reads s' + List.length (st_data s') = st_reads s + List.length (st_data s))%nat) by (intros h E; apply IH in E as [E1 E2]; split; [congruence|lia]).
  destruct (negb (end_with_crlf l)); [apply K|]. destruct (blen l =? 2); [intro E; injection E as _ _ <-; split; assumption|]. destruct (MAX_LENGTH <? blen l); [intro E; injection E as _ _ <-; split; assumption|apply K].
Qed.

Theorem form_arrives bd cn sv close s path lines b l more c : plain_path path -> Forall plain_line lines -> conn_ok cn -> values_ci (s2b "Range") lines = [] -> boundary_ok b -> Forall (part_ok b) l -> l <> [] -> (List.length l <= FILE_MAX_COUNT)%nat ->
  values_ci (s2b "Content-Type") lines = [s2b "multipart/form-data; boundary=" ++ b] -> values_ci (s2b "Content-Encoding") lines = [] -> values_ci (s2b "Transfer-Encoding") lines = [] ->
  values_ci (s2b "Content-Length") lines = [dec_digits (blen (form_text b l))] -> blen (form_text b l) <= ULONG_MAX -> holds (own_request path lines (form_text b l) ++ more) c s ->
  blen b + 4 <= st_pick s (st_reads s + List.length (own_request path lines [])) ->
  exists out again s', any_turn bd cn sv close s = Turn out (Some (mk_request (s2b "POST") path (arriving (lines ++ conn_lines cn)) [])) again s' /\ st_data s' = more.
Proof.
  intros P PL C VR HB HP NE HC VT VE VC VL LL H PK. rewrite own_split in H. pose proof H as [D0 _]. unfold any_turn.
  remember (form_text b l ++ more) as d eqn:ED. unfold own_request in H.
  replace ((s2b "POST " ++ encode_url path ++ s2b " HTTP/1.1" ++ CRLF ++ write_headers lines ++ []) ++ d)
    with ((request_text path ++ [13]) ++ 10 :: (write_headers lines ++ d)) in H by (unfold request_text; rewrite app_nil_r, <- !app_assoc; reflexivity).
  assert (EU : encode_url path = flat_map encode_char path) by (unfold encode_url; rewrite path_nul by apply P; reflexivity).
  destruct P as (P0 & PC & PL0).
  assert (NLF : Forall (fun x => x <> 10) (request_text path ++ [13])).
  { unfold request_text. rewrite EU. rewrite !Forall_app; repeat split; try (repeat constructor; discriminate); apply enc_no; [exact PC|tauto]. }
  assert (NUL : Forall (fun x => x <> 0) (request_text path ++ CRLF)).
  { unfold request_text. rewrite EU. rewrite !Forall_app; repeat split; try (repeat constructor; discriminate); apply enc_no; [exact PC|tauto]. }
  destruct (getline_line s _ _ c H NLF) as (s1 & G & H1). rewrite G. apply getline_reads in G as [G1 G2].
  replace ((request_text path ++ [13]) ++ [10]) with (request_text path ++ CRLF) by (rewrite <- app_assoc; reflexivity).
  assert (LN : blen (request_text path ++ CRLF) <= MAX_LENGTH).
  { unfold request_text. rewrite EU, !blen_app. change (blen (s2b "POST ")) with 5. change (blen (s2b " HTTP/1.1")) with 9. change (blen CRLF) with 2.
    pose proof (encoded_length path) as Q. unfold blen, MAX_LENGTH in *. lia. }
  replace (MAX_LENGTH <? blen (request_text path ++ CRLF)) with false by lia.
  rewrite (upto_nul_plain _ NUL), parse_request by (split; [exact P0|split; [exact PC|exact PL0]]). cbn [rl_ok rl_method rl_path rl_version negb].
  destruct (usual_headers s1 lines d c (Forall_impl usual_line (fun e (Q : plain_line e) => or_introl Q) PL) H1) as (s2 & R & H2). rewrite R. apply headers_reads in R as [R1 R2].
  cbn [negb]. rewrite (tells_plain lines PL). rewrite add_addresses_lines by exact C. cbv zeta.
  remember (arriving (lines ++ conn_lines cn)) as hs eqn:EH.
  assert (HR : mm_has (s2b "Range") hs = false) by (subst hs; rewrite mm_has_ci; replace (values_ci (s2b "Range") (arriving (lines ++ conn_lines cn))) with (@nil bytes); [reflexivity|symmetry; own_value; exact VR]).
  rewrite HR. cbn [negb].
  assert (W1 : values_ci (s2b "Content-Type") hs = [s2b "multipart/form-data; boundary=" ++ b]) by (subst hs; own_value; exact VT).
  assert (W2 : values_ci (s2b "Content-Encoding") hs = []) by (subst hs; own_value; exact VE).
  assert (W3 : values_ci (s2b "Transfer-Encoding") hs = []) by (subst hs; own_value; exact VC).
  assert (W4 : values_ci (s2b "Content-Length") hs = [dec_digits (blen (form_text b l))]) by (subst hs; own_value; exact VL).
  assert (RS : st_reads s2 = (st_reads s + List.length (own_request path lines []))%nat).
  { destruct H2 as [D2 _]. rewrite D2 in R2. rewrite D0, app_length in G2. lia. }
  destruct (form_read b l hs s2 more [] HB HP NE HC W1 W2 W3 W4 LL) as (s3 & RF & D3); [rewrite <- ED; exact (proj1 H2)|rewrite R1, G1, RS; exact PK|].
  unfold any_content. change (expects_content (s2b "POST")) with true. cbn [andb].
  replace (has_prefix (s2b "multipart/form-data") (header_value (s2b "Content-Type") hs)) with true.
  2: { symmetry. rewrite header_value_ci, W1. destruct HB as (_ & BF & _). rewrite chars_upto; [reflexivity|].
    apply Forall_app. split; [|apply chars_not; [exact BF|not_char]]. apply Forall_forall; intros x I; vm_compute in I; repeat (destruct I as [<-|I]; [lia|]); destruct I. }
  rewrite RF. destruct (ranged_response sv _ _) as [routed r]. eexists _, _, s3. split; [reflexivity|exact D3].
Qed.
