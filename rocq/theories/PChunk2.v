(** Proofs about messages in chunks: requests and answers. *)
From Coq Require Import ZifyBool ZifyNat ZifyN Sorted.
From Verif Require Import Base PBase MSerialize MHttp SHttp PHttp PHttp2 MTls MWire SWire PWire PWire2 PWire3 PWire4 PWire5 PWire6 PWire7 PWire8 SChunk PChunk.
Open Scope N_scope.

Lemma plain_of k lines v : Forall plain_line lines -> In v (values_ci k lines) -> plain_value v.
Proof. intros PL I. unfold values_ci in I. apply in_map_iff in I as (e & <- & I). apply filter_In in I as [I _]. rewrite Forall_forall in PL. apply PL, I. Qed.
Lemma emplaced_arriving a b : emplaced b (arriving a) = arriving (a ++ b).
Proof. unfold emplaced, arriving. rewrite fold_left_app. reflexivity. Qed.
Lemma no_form p cn lines tr : conn_ok cn -> Forall plain_line (lines ++ tr) -> Forall (fun v => ~ is_prefix p v) (values_ci (s2b "Content-Type") (lines ++ tr)) -> p <> [] ->
  has_prefix p (header_value (s2b "Content-Type") (arriving (lines ++ conn_lines cn ++ tr))) = false.
Proof.
  intros C PL FV NP. rewrite header_value_ci, arriving_values, !values_ci_app. change (values_ci (s2b "Content-Type") (conn_lines cn)) with (@nil bytes). cbn [app]. rewrite <- values_ci_app.
  destruct (values_ci (s2b "Content-Type") (lines ++ tr)) as [|v r] eqn:V; [destruct p; [contradiction|reflexivity]|]. assert (PV : plain_value v) by (apply (plain_of (s2b "Content-Type") (lines ++ tr)); [exact PL|rewrite V; left; reflexivity]).
  destruct (value_sendable _ (plain_value_chars _ PV)) as [_ ->]. destruct (has_prefix p v) eqn:M; [|reflexivity]. apply prefix_iff in M. apply Forall_inv in FV. contradiction.
Qed.
Lemma request_head cn sv close path lines d c s : plain_path path -> Forall plain_line lines -> conn_ok cn -> values_ci (s2b "Range") lines = [] -> Forall (fun v => ~ is_prefix (s2b "multipart/form-data") v) (values_ci (s2b "Content-Type") lines) ->
  holds (own_request path lines [] ++ d) c s ->
  exists first closed s2, (first = [] \/ first = CONTINUE) /\ holds d c s2 /\
  process_turn cn sv close s = match server_content (s2b "POST") (arriving (lines ++ conn_lines cn)) s2 with
    | (Refused z hs, s) => Turn (first ++ server_reply close (s2b "POST") hs false (failure z)) None (negb closed) s
    | (Content body hs, s) => let req := mk_request (s2b "POST") path hs body in
      Turn (first ++ server_reply close (s2b "POST") hs (fst (routed_response sv req)) (snd (routed_response sv req))) (Some req) (negb closed) s
    end.
Proof.
  intros P PL C VR VC H. unfold process_turn. unfold own_request in H.
  replace ((s2b "POST " ++ encode_url path ++ s2b " HTTP/1.1" ++ CRLF ++ write_headers lines ++ []) ++ d)
    with ((request_text path ++ [13]) ++ 10 :: (write_headers lines ++ d)) in H by (unfold request_text; rewrite app_nil_r, <- !app_assoc; reflexivity).
  assert (EU : encode_url path = flat_map encode_char path) by (unfold encode_url; rewrite path_nul by apply P; reflexivity).
  destruct P as (P0 & PC & PL0).
  assert (NLF : Forall (fun x => x <> 10) (request_text path ++ [13])).
  { unfold request_text. rewrite EU. rewrite !Forall_app; repeat split; try (repeat constructor; discriminate); apply enc_no; [exact PC|tauto]. }
  assert (NUL : Forall (fun x => x <> 0) (request_text path ++ CRLF)).
  { unfold request_text. rewrite EU. rewrite !Forall_app; repeat split; try (repeat constructor; discriminate); apply enc_no; [exact PC|tauto]. }
  destruct (getline_line s _ _ c H NLF) as (s1 & G & H1). rewrite G. clear G H.
  replace ((request_text path ++ [13]) ++ [10]) with (request_text path ++ CRLF) by (rewrite <- app_assoc; reflexivity).
  assert (LL : blen (request_text path ++ CRLF) <= MAX_LENGTH).
  { unfold request_text. rewrite EU, !blen_app. change (blen (s2b "POST ")) with 5. change (blen (s2b " HTTP/1.1")) with 9. change (blen CRLF) with 2.
    pose proof (encoded_length path) as Q. unfold blen, MAX_LENGTH in *. lia. }
  replace (MAX_LENGTH <? blen (request_text path ++ CRLF)) with false by lia.
  rewrite (upto_nul_plain _ NUL), parse_request by (split; [exact P0|split; [exact PC|exact PL0]]). cbn [rl_ok rl_method rl_path rl_version negb].
  destruct (usual_headers s1 lines d c (Forall_impl usual_line (fun e (Q : plain_line e) => or_introl Q) PL) H1) as (s2 & G & H2). rewrite G. clear G H1.
  cbn [negb]. rewrite (tells_plain lines PL). rewrite add_addresses_lines by exact C. cbv zeta.
  pose proof (no_form (s2b "multipart/form-data") cn lines [] C ltac:(rewrite app_nil_r; exact PL) ltac:(rewrite app_nil_r; exact VC) ltac:(discriminate)) as HT. rewrite app_nil_r in HT.
  remember (arriving (lines ++ conn_lines cn)) as hs eqn:EH.
  assert (HR : mm_has (s2b "Range") hs = false) by (subst hs; rewrite mm_has_ci; replace (values_ci (s2b "Range") (arriving (lines ++ conn_lines cn))) with (@nil bytes); [reflexivity|symmetry; own_value; exact VR]).
  rewrite HR. change (expects_content (s2b "POST")) with true. cbn [andb]. rewrite HT.
  match goal with |- context [negb (?a || ?b)] => remember (a || b) as closed end.
  remember (if beqb (header_value (s2b "Expect") hs) (s2b "100-continue") then s2b "HTTP/1.1 100 Continue" ++ CRLF ++ CRLF else []) as first eqn:EF.
  exists first, closed, s2. split; [rewrite EF; destruct (beqb (header_value (s2b "Expect") hs) _); [right|left]; reflexivity|]. split; [exact H2|].
  destruct (server_content (s2b "POST") hs s2) as [[body hs'|z hs'] s3]; [|reflexivity]. destruct (routed_response sv _) as [routed r]. reflexivity.
Qed.
Lemma own_split path lines body more : own_request path lines body ++ more = own_request path lines [] ++ (body ++ more).
Proof. unfold own_request. rewrite app_nil_r, <- !app_assoc. reflexivity. Qed.
Lemma chunked_values lines tr cn : chunk_lines_ok lines tr -> exists v, values_ci (s2b "Content-Encoding") (arriving (lines ++ conn_lines cn)) = [] /\ values_ci (s2b "Transfer-Encoding") (arriving (lines ++ conn_lines cn)) = [v] /\ plain_value v /\ same_name v (s2b "chunked").
Proof.
  intros (PL & (v & VT & SN) & VE & _). exists v. split; [own_value; exact VE|]. split; [own_value; exact VT|]. split; [|exact SN]. apply Forall_app in PL as [PL _]. apply (plain_of (s2b "Transfer-Encoding") lines); [exact PL|rewrite VT; left; reflexivity].
Qed.

(** A request in chunks is handled as one, and answered. *)
Lemma chunked_arrives cn sv close s path lines ks t0 e0 tr more c : plain_path path -> chunk_lines_ok lines tr -> Forall chunk_ok ks -> last_ok t0 e0 -> conn_ok cn ->
  holds (own_request path lines (chunked_text ks t0 e0 tr) ++ more) c s ->
  let req := mk_request (s2b "POST") path (arriving (lines ++ conn_lines cn ++ tr)) (data_of ks) in
  exists out again s', process_turn cn sv close s = Turn out (Some req) again s' /\ holds more c s' /\
    let p := process_request sv req in (usual_server sv req -> (101 <= rs_status p <= 999)%Z ->
      forall more' pick orderly, client_reply (mk_stream (out ++ more') pick 0 orderly) = Replied (rs_status p) (received (rs_status p) (rs_body p))).
Proof.
  intros P LO F L0 C H req. destruct (chunked_values lines tr cn LO) as (v & VE & VT & PV & SN). destruct LO as (PL & _ & _ & VR & VC). pose proof PL as PL'. apply Forall_app in PL as [PL PT].
  assert (VM : Forall (fun v => ~ is_prefix (s2b "multipart/form-data") v) (values_ci (s2b "Content-Type") lines)). { rewrite values_ci_app in VC. apply Forall_app in VC as [VC _]. eapply Forall_impl; [|exact VC]. cbn. tauto. }
  rewrite own_split in H. destruct (request_head cn sv close path lines _ c s P PL C VR VM H) as (first & closed & s2 & FF & H2 & E). rewrite E. clear E.
  destruct (content_whole (arriving (lines ++ conn_lines cn)) s2 c ks t0 e0 tr more v H2 F L0 PT VE VT PV SN) as (s3 & RC & H3).
  unfold server_content. change (expects_content (s2b "POST")) with true. change (beqb (s2b "POST") (s2b "DELETE")) with false. cbn [negb andb orb]. rewrite RC. rewrite emplaced_arriving, <- app_assoc.
  rewrite (no_form (s2b "application/x-www-form-urlencoded") cn lines tr C PL' ltac:(eapply Forall_impl; [|exact VC]; cbn; tauto) ltac:(discriminate)). cbn [andb]. cbv zeta. fold req.
  eexists _, _, s3. split; [reflexivity|]. split; [exact H3|]. intros U ST more' pick orderly.
  pose proof (routed_ok sv req U eq_refl) as RO. pose proof (routed_sent sv req eq_refl) as RS. destruct (routed_response sv req) as [routed r]. cbn [fst snd]. destruct RO as (R1 & R2 & R3). destruct RS as [S1 S2]. rewrite S1 in *.
  rewrite (reply_after close (s2b "POST") (rq_headers req) routed r _ orderly more' first R1 R2 R3 ST eq_refl FF); [rewrite S2; reflexivity|split; reflexivity].
Qed.

Lemma own_cut cn sv close path lines p z c s : plain_path path -> Forall plain_line lines -> own_request path lines [] = p ++ z -> z <> [] -> holds p c s ->
  process_turn cn sv close s = Gone \/ exists w s', process_turn cn sv close s = Turn w None true s' /\ holds [] c s'.
Proof.
  intros P PL E N H. unfold own_request in E. rewrite app_nil_r in E.
  replace (s2b "POST " ++ encode_url path ++ s2b " HTTP/1.1" ++ CRLF ++ write_headers lines) with (((request_text path ++ [13]) ++ [10]) ++ write_headers lines) in E by (unfold request_text; rewrite <- !app_assoc; reflexivity).
  assert (EU : encode_url path = flat_map encode_char path) by (unfold encode_url; rewrite path_nul by apply P; reflexivity).
  pose proof P as (P0 & PC & PL0).
  assert (NLF : Forall (fun x => x <> 10) (request_text path ++ [13])).
  { unfold request_text. rewrite EU. rewrite !Forall_app; repeat split; try (repeat constructor; discriminate); apply enc_no; [exact PC|tauto]. }
  assert (NUL : Forall (fun x => x <> 0) (request_text path ++ CRLF)).
  { unfold request_text. rewrite EU. rewrite !Forall_app; repeat split; try (repeat constructor; discriminate); apply enc_no; [exact PC|tauto]. }
  assert (LL : blen (request_text path ++ CRLF) <= MAX_LENGTH).
  { unfold request_text. rewrite EU, !blen_app. change (blen (s2b "POST ")) with 5. change (blen (s2b " HTTP/1.1")) with 9. change (blen CRLF) with 2.
    pose proof (encoded_length path) as Q. unfold blen, MAX_LENGTH in *. lia. }
  unfold process_turn. apply prefix_of_app in E as [(y & NY & E)|(q & -> & E)].
  - pose proof E as E'. apply (f_equal (fun x => blen x)) in E'. rewrite (blen_app p y) in E'. rewrite <- (app_assoc _ [13]) in E'. change ([13] ++ [10]) with CRLF in E'.
    destruct (getline_cut s _ p y c E NY NLF H) as (s1 & G & H1 & F). rewrite G. destruct (c && negb (beqb p [])); [right|left; reflexivity].
    replace (MAX_LENGTH <? blen p) with false by lia. unfold parse_request_line. rewrite (no_lf_no_crlf (upto_nul p) (upto_nul_forall _ _ F)). eexists _, s1. split; [reflexivity|exact H1].
  - replace (((request_text path ++ [13]) ++ [10]) ++ q) with ((request_text path ++ [13]) ++ 10 :: q) in H by (rewrite <- (app_assoc _ [10]); reflexivity).
    destruct (getline_line s _ _ c H NLF) as (s1 & G & H1). rewrite G. right.
    destruct (read_headers_cut s1 lines q z c (Forall_impl usual_line (fun e (Q : plain_line e) => or_introl Q) PL) E N H1) as (hs & s2 & G2 & H2).
    replace ((request_text path ++ [13]) ++ [10]) with (request_text path ++ CRLF) by (rewrite <- app_assoc; reflexivity).
    replace (MAX_LENGTH <? blen (request_text path ++ CRLF)) with false by lia. rewrite (upto_nul_plain _ NUL), parse_request by exact P. cbn [rl_ok rl_method negb]. rewrite G2. eexists _, s2. split; [reflexivity|exact H2].
Qed.
(** A request in chunks that is cut off is never handled. *)
Lemma chunked_cut n cn sv s path lines ks t0 e0 tr p y c : plain_path path -> chunk_lines_ok lines tr -> Forall chunk_ok ks -> last_ok t0 e0 -> conn_ok cn ->
  own_request path lines (chunked_text ks t0 e0 tr) = p ++ y -> y <> [] -> holds p c s -> exists w, serve n cn sv s = (w, [], true).
Proof.
  intros P LO F L0 C E N H. destruct n as [|n]; [exists []; reflexivity|]. destruct (chunked_values lines tr cn LO) as (v & VE & VT & PV & SN). destruct LO as (PL & _ & _ & VR & VC). apply Forall_app in PL as [PL PT].
  rewrite <- (app_nil_r (own_request path lines (chunked_text ks t0 e0 tr))), own_split, app_nil_r in E.
  apply prefix_of_app in E as [(z & NZ & E)|(q & -> & E)].
  - destruct (own_cut cn sv (Nat.eqb n 0) path lines p z c s P PL E NZ H) as [G|(w & s' & G & H')]; [cbn [serve]; rewrite G; eexists; reflexivity|]. exact (turn_none n cn sv s w true s' c G (fun _ => H')).
  - assert (VM : Forall (fun v => ~ is_prefix (s2b "multipart/form-data") v) (values_ci (s2b "Content-Type") lines)). { rewrite values_ci_app in VC. apply Forall_app in VC as [VC _]. eapply Forall_impl; [|exact VC]. cbn. tauto. }
    destruct (request_head cn sv (Nat.eqb n 0) path lines q c s P PL C VR VM H) as (first & closed & s2 & FF & H2 & G).
    destruct (content_cut (arriving (lines ++ conn_lines cn)) s2 c ks t0 e0 tr q y v H2 E N F L0 PT VE VT PV SN) as (hs' & s3 & RC & H3).
    unfold server_content in G. change (expects_content (s2b "POST")) with true in G. change (beqb (s2b "POST") (s2b "DELETE")) with false in G. cbn [negb andb orb] in G. rewrite RC in G.
    exact (turn_none n cn sv s _ _ s3 c G (fun _ => H3)).
Qed.

(** *** Answers *)
Lemma match_answer st reason : (100 <= st <= 999)%Z -> Forall (fun c => c <> 0 /\ c <> 10 /\ c <> 13) reason -> match_status ((s2b "HTTP/1.1 " ++ dec_digits (Z.to_N st) ++ s2b " " ++ reason) ++ CRLF) = Some st.
Proof.
  intros H F. pose proof (three_value st H) as V. pose proof (three_text st H) as T. cbv zeta in V, T. rewrite to_text_port in T by lia. unfold match_status. rewrite T.
  remember (48 + Z.to_N st / 100) as a. remember (48 + Z.to_N st / 10 mod 10) as b. remember (48 + Z.to_N st mod 10) as d. clear Heqa Heqb Heqd T.
  pose proof (no_line_end _ F) as M.
  replace ((s2b "HTTP/1.1 " ++ [a; b; d] ++ s2b " " ++ reason) ++ CRLF) with (s2b "HTTP/1." ++ [49; 32; a; b; d; 32] ++ (reason ++ CRLF)) by (rewrite <- !app_assoc; reflexivity).
  assert (P : has_prefix (s2b "HTTP/1.") (s2b "HTTP/1." ++ [49; 32; a; b; d; 32] ++ (reason ++ CRLF)) = true) by (apply prefix_iff; eexists; reflexivity).
  rewrite P. cbn [negb]. change (skipn 7 (s2b "HTTP/1." ++ [49; 32; a; b; d; 32] ++ (reason ++ CRLF))) with (49 :: 32 :: a :: b :: d :: 32 :: (reason ++ CRLF)). cbn iota.
  change ((49 =? 48) || (49 =? 49)) with true. change (32 =? 32) with true. cbn [andb]. rewrite V.
  change (beqb (32 :: reason ++ CRLF) CRLF) with false. cbn iota. rewrite crlf_app, crlf_cut. rewrite M. reflexivity.
Qed.
Lemma answer_line_chars st reason : Forall (fun c => c <> 0 /\ c <> 10 /\ c <> 13) reason -> Forall (fun c => c <> 0 /\ c <> 10 /\ c <> 13) (s2b "HTTP/1.1 " ++ dec_digits (Z.to_N st) ++ s2b " " ++ reason).
Proof.
  intro F. apply Forall_app. split; [repeat (apply Forall_cons; [split; [discriminate|split; discriminate]|]); apply Forall_nil|]. apply Forall_app. split; [eapply Forall_impl; [|apply digits_digit]; unfold digit; intros a A; lia|].
  apply Forall_app. split; [repeat (apply Forall_cons; [split; [discriminate|split; discriminate]|]); apply Forall_nil|exact F].
Qed.
Lemma answer_head st reason lines d c s : (101 <= st <= 999)%Z -> Forall (fun c => c <> 0 /\ c <> 10 /\ c <> 13) reason -> Forall plain_line lines -> holds (answer_text st reason lines [] ++ d) c s ->
  exists s2, holds d c s2 /\ read_response s = if (st =? 204)%Z then Some (st, arriving lines, []) else match read_content (arriving lines) s2 with (Content body hs, _) => Some (st, hs, body) | (Refused _ _, _) => None end.
Proof.
  intros ST F PL H. unfold answer_text in H. remember (s2b "HTTP/1.1 " ++ dec_digits (Z.to_N st) ++ s2b " " ++ reason) as l eqn:EL.
  replace ((s2b "HTTP/1.1 " ++ dec_digits (Z.to_N st) ++ s2b " " ++ reason ++ CRLF ++ write_headers lines ++ []) ++ d) with ((l ++ [13]) ++ 10 :: (write_headers lines ++ d)) in H by (rewrite EL, app_nil_r, <- !app_assoc; reflexivity).
  pose proof (answer_line_chars st reason F) as LC. rewrite <- EL in LC. unfold read_response, read_response_line.
  destruct (getline_line s _ _ c H) as (s1 & G & H1); [apply Forall_app; split; [eapply Forall_impl; [|exact LC]; cbn; tauto|repeat constructor; discriminate]|].
  rewrite G. replace ((l ++ [13]) ++ [10]) with (l ++ CRLF) by (rewrite <- app_assoc; reflexivity).
  rewrite upto_nul_plain by (apply Forall_app; split; [eapply Forall_impl; [|exact LC]; cbn; tauto|repeat constructor; discriminate]). rewrite EL, match_answer by (exact F || lia).
  cbn [after_continue]. replace (st =? 100)%Z with false by lia.
  destruct (usual_headers s1 lines d c (Forall_impl usual_line (fun e (Q : plain_line e) => or_introl Q) PL) H1) as (s2 & G2 & H2). rewrite G2. cbn [negb]. rewrite (tells_plain lines PL).
  exists s2. split; [exact H2|]. reflexivity.
Qed.
Lemma answer_split st reason lines body more : answer_text st reason lines body ++ more = answer_text st reason lines [] ++ (body ++ more).
Proof. unfold answer_text. rewrite app_nil_r, <- !app_assoc. reflexivity. Qed.
Lemma answer_values lines tr : chunk_lines_ok lines tr -> exists v, values_ci (s2b "Content-Encoding") (arriving lines) = [] /\ values_ci (s2b "Transfer-Encoding") (arriving lines) = [v] /\ plain_value v /\ same_name v (s2b "chunked").
Proof.
  intros (PL & (v & VT & SN) & VE & _). exists v. rewrite !arriving_values. split; [exact VE|]. split; [exact VT|]. split; [|exact SN]. apply Forall_app in PL as [PL _]. apply (plain_of (s2b "Transfer-Encoding") lines); [exact PL|rewrite VT; left; reflexivity].
Qed.
Lemma answer_nonempty st reason lines body more c s : holds (answer_text st reason lines body ++ more) c s -> beqb (st_data s) [] = false.
Proof. intros [-> _]. reflexivity. Qed.
Lemma chunked_answer s st reason lines ks t0 e0 tr more c : (101 <= st <= 999)%Z -> Forall (fun c => c <> 0 /\ c <> 10 /\ c <> 13) reason -> chunk_lines_ok lines tr -> Forall chunk_ok ks -> last_ok t0 e0 ->
  holds (answer_text st reason lines (chunked_text ks t0 e0 tr) ++ more) c s -> client_reply s = Replied st (received st (data_of ks)).
Proof.
  intros ST FR LO F L0 H. unfold client_reply. rewrite (answer_nonempty _ _ _ _ _ _ _ H). cbn [andb]. destruct (answer_values lines tr LO) as (v & VE & VT & PV & SN). destruct LO as (PL & _). apply Forall_app in PL as [PL PT].
  rewrite answer_split in H. destruct (answer_head st reason lines _ c s ST FR PL H) as (s2 & H2 & ->). unfold received. destruct (st =? 204)%Z; [reflexivity|].
  destruct (content_whole (arriving lines) s2 c ks t0 e0 tr more v H2 F L0 PT VE VT PV SN) as (s3 & -> & _). reflexivity.
Qed.
Lemma answer_head_cut st reason lines p z c s : (101 <= st <= 999)%Z -> Forall (fun c => c <> 0 /\ c <> 10 /\ c <> 13) reason -> Forall plain_line lines -> answer_text st reason lines [] = p ++ z -> z <> [] -> holds p c s -> read_response s = None.
Proof.
  intros ST F PL E N H. unfold answer_text in E. rewrite app_nil_r in E. remember (s2b "HTTP/1.1 " ++ dec_digits (Z.to_N st) ++ s2b " " ++ reason) as l eqn:EL.
  replace (s2b "HTTP/1.1 " ++ dec_digits (Z.to_N st) ++ s2b " " ++ reason ++ CRLF ++ write_headers lines) with (((l ++ [13]) ++ [10]) ++ write_headers lines) in E by (rewrite EL, <- !app_assoc; reflexivity).
  pose proof (answer_line_chars st reason F) as LC. rewrite <- EL in LC. unfold read_response, read_response_line.
  assert (NLF : Forall (fun x => x <> 10) (l ++ [13])) by (apply Forall_app; split; [eapply Forall_impl; [|exact LC]; cbn; tauto|repeat constructor; discriminate]).
  apply prefix_of_app in E as [(y & NY & E)|(q & -> & E)].
  - destruct (getline_cut s _ p y c E NY NLF H) as (s1 & G & H1 & FP). rewrite G. destruct (c && negb (beqb p [])); [|reflexivity]. rewrite match_needs_end by (apply upto_nul_forall, FP). reflexivity.
  - replace (((l ++ [13]) ++ [10]) ++ q) with ((l ++ [13]) ++ 10 :: q) in H by (rewrite <- (app_assoc _ [10]); reflexivity). destruct (getline_line s _ _ c H NLF) as (s1 & G & H1).
    rewrite G. replace ((l ++ [13]) ++ [10]) with (l ++ CRLF) by (rewrite <- app_assoc; reflexivity).
    rewrite upto_nul_plain by (apply Forall_app; split; [eapply Forall_impl; [|exact LC]; cbn; tauto|repeat constructor; discriminate]). rewrite EL, match_answer by (exact F || lia).
    cbn [after_continue]. replace (st =? 100)%Z with false by lia.
    destruct (read_headers_cut s1 lines q z c (Forall_impl usual_line (fun e (Q : plain_line e) => or_introl Q) PL) E N H1) as (hs' & s2 & G2 & _). rewrite G2. reflexivity.
Qed.
Lemma chunked_answer_cut s st reason lines ks t0 e0 tr p y c : (101 <= st <= 999)%Z -> st <> 204%Z -> Forall (fun c => c <> 0 /\ c <> 10 /\ c <> 13) reason -> chunk_lines_ok lines tr -> Forall chunk_ok ks -> last_ok t0 e0 ->
  answer_text st reason lines (chunked_text ks t0 e0 tr) = p ++ y -> y <> [] -> holds p c s -> client_reply s = Closed \/ client_reply s = Failed.
Proof.
  intros ST S4 FR LO F L0 E N H. unfold client_reply. destruct (beqb (st_data s) [] && st_closed s); [left; reflexivity|right]. enough (R : read_response s = None) by (rewrite R; reflexivity).
  destruct (answer_values lines tr LO) as (v & VE & VT & PV & SN). destruct LO as (PL & _). apply Forall_app in PL as [PL PT].
  rewrite <- (app_nil_r (answer_text _ _ _ _)), answer_split, app_nil_r in E. apply prefix_of_app in E as [(z & NZ & E)|(q & -> & E)].
  - exact (answer_head_cut st reason lines p z c s ST FR PL E NZ H).
  - destruct (answer_head st reason lines q c s ST FR PL H) as (s2 & H2 & ->). replace (st =? 204)%Z with false by lia.
    destruct (content_cut (arriving lines) s2 c ks t0 e0 tr q y v H2 E N F L0 PT VE VT PV SN) as (hs' & s3 & -> & _). reflexivity.
Qed.
