(** Proofs about requests for a part of an answer: what the server writes and the client
    reads. *)
From Coq Require Import ZifyBool ZifyNat ZifyN Sorted.
From Verif Require Import Base PBase MSerialize MHttp SHttp PHttp PHttp2 MTls MWire SWire PWire PWire2 PWire3 PWire4 PWire5 PWire6 PWire7 PWire8 MRange SRange PRange.
Open Scope N_scope.

(** *** Without a Range header nothing is new *)
Lemma apply_none b r : apply_ranges b [] r = match rs_body r with [] => r | _ => set_header (s2b "Content-Length") (dec_digits (blen (rs_body r))) r end.
Proof. unfold apply_ranges. cbv zeta. destruct (rs_body r) eqn:E; reflexivity. Qed.
Lemma reply_none close method hs b routed r : ranged_reply close method hs b [] routed r = server_reply close method hs routed r.
Proof.
  unfold ranged_reply, server_reply. cbv zeta. remember (if (400 <=? rs_status r)%Z then error_handler r else r) as r1.
  replace (if routed || (400 <=? rs_status r)%Z then apply_ranges b [] r1 else r1)
    with (if (routed || (400 <=? rs_status r)%Z) && negb (beqb (rs_body r1) []) then set_header (s2b "Content-Length") (dec_digits (blen (rs_body r1))) r1 else r1); [reflexivity|].
  destruct (routed || _); [|reflexivity]. rewrite apply_none. destruct (rs_body r1); reflexivity.
Qed.
Lemma response_none sv req : ranged_response sv req [] = routed_response sv req.
Proof. reflexivity. Qed.
Lemma turn_none b cn sv close s : process_turn cn sv close s <> Elsewhere -> ranged_turn b cn sv close s = process_turn cn sv close s.
Proof.
  unfold process_turn, ranged_turn. destruct (getline s) as [[line|] s1]; [|reflexivity]. destruct (MAX_LENGTH <? blen line); [reflexivity|]. cbv zeta.
  destruct (negb (rl_ok _)); [reflexivity|]. destruct (read_headers s1) as [[ok hs] s2]. destruct (negb ok); [reflexivity|]. destruct (mm_has (s2b "Range") (add_addresses cn hs)); [congruence|]. intros _. cbn [negb].
  destruct (_ && _); [reflexivity|]. destruct (server_content _ _ s2) as [[body hs2|z hs2] s3]; [|rewrite reply_none; reflexivity].
  rewrite response_none. destruct (routed_response sv _) as [routed r]. rewrite reply_none. reflexivity.
Qed.

(** *** The server's turn *)
Definition range_header (ranges : list bytes) : bool * list range := match ranges with [] => (true, []) | v :: _ => parse_range_header v end.
Lemma value_plain k lines v : Forall plain_line lines -> In v (values_ci k lines) -> plain_value v.
Proof. intros PL I. unfold values_ci in I. apply in_map_iff in I as (e & <- & I). apply filter_In in I as [I _]. rewrite Forall_forall in PL. apply PL, I. Qed.
Lemma ranged_arrives b cn sv close s path lines ranges body more c : plain_path path -> range_lines_ok ranges lines (blen body) -> blen body <= SIZE_MAX -> conn_ok cn ->
  holds (own_request path lines body ++ more) c s ->
  let req := mk_request (s2b "POST") path (arriving (lines ++ conn_lines cn)) body in
  let '(fine, rs) := range_header ranges in
  exists again s', if fine
    then exists first, (first = [] \/ first = CONTINUE) /\ ranged_turn b cn sv close s = Turn (first ++ ranged_reply close (s2b "POST") (rq_headers req) b rs (fst (ranged_response sv req rs)) (snd (ranged_response sv req rs))) (Some req) again s' /\ holds more c s'
    else ranged_turn b cn sv close s = Turn (ranged_reply close (s2b "POST") (rq_headers req) b rs false (failure 416)) None again s' /\ holds (body ++ more) c s'.
Proof.
  intros P (PL & VL & VE & VT & VR & VC) B C H req. unfold ranged_turn. unfold own_request in H.
  replace ((s2b "POST " ++ encode_url path ++ s2b " HTTP/1.1" ++ CRLF ++ write_headers lines ++ body) ++ more)
    with ((request_text path ++ [13]) ++ 10 :: (write_headers lines ++ (body ++ more))) in H by (unfold request_text; rewrite <- !app_assoc; reflexivity).
  assert (EU : encode_url path = flat_map encode_char path) by (unfold encode_url; rewrite path_nul by apply P; reflexivity).
  destruct P as (P0 & PC & PL0).
  assert (NLF : Forall (fun x => x <> 10) (request_text path ++ [13])).
  { unfold request_text. rewrite EU. rewrite !Forall_app; repeat split; try (repeat constructor; discriminate); apply enc_no; [exact PC|tauto]. }
  assert (NUL : Forall (fun x => x <> 0) (request_text path ++ CRLF)).
  { unfold request_text. rewrite EU. rewrite !Forall_app; repeat split; try (repeat constructor; discriminate); apply enc_no; [exact PC|tauto]. }
  destruct (getline_line s _ _ c H NLF) as (s1 & G & H1). rewrite G. clear G H.
  replace ((request_text path ++ [13]) ++ [10]) with (request_text path ++ CRLF) by (rewrite <- app_assoc; reflexivity).
  assert (LL : blen (request_text path ++ CRLF) <= MAX_LENGTH).
  { unfold request_text. rewrite EU, !blen_app. change (blen (s2b "POST ")) with 5. change (blen (s2b " HTTP/1.1")) with 9. change (blen CRLF) with 2.
    pose proof (encoded_length path) as Q. unfold blen, MAX_LENGTH in *. lia. }
  replace (MAX_LENGTH <? blen (request_text path ++ CRLF)) with false by lia.
  rewrite (upto_nul_plain _ NUL), parse_request by (split; [exact P0|split; [exact PC|exact PL0]]). cbn [rl_ok rl_method rl_path rl_version negb].
  destruct (usual_headers s1 lines (body ++ more) c (Forall_impl usual_line (fun e (Q : plain_line e) => or_introl Q) PL) H1) as (s2 & G & H2). rewrite G. clear G H1.
  cbn [negb]. rewrite (tells_plain lines PL). rewrite add_addresses_lines by exact C. cbv zeta. unfold req. cbn [rq_headers]. clear req.
  remember (arriving (lines ++ conn_lines cn)) as hs eqn:EH.
  assert (EV : values_ci (s2b "Range") hs = ranges) by (subst hs; own_value; exact VR).
  assert (HR : (if mm_has (s2b "Range") hs then parse_range_header (header_value (s2b "Range") hs) else (true, [])) = range_header ranges).
  { rewrite mm_has_ci, header_value_ci, EV. destruct ranges as [|v r]; [reflexivity|]. cbn [negb range_header].
    assert (PV : plain_value v) by (apply (value_plain (s2b "Range") lines); [exact PL|rewrite VR; left; reflexivity]).
    destruct (value_sendable _ (plain_value_chars _ PV)) as [_ ->]. reflexivity. }
  rewrite HR. destruct (range_header ranges) as [fine rs]. destruct fine; cbn [negb]; [|eexists _, s2; split; [reflexivity|exact H2]].
  change (expects_content (s2b "POST")) with true. cbn [andb].
  assert (HT : has_prefix (s2b "multipart/form-data") (header_value (s2b "Content-Type") hs) = false /\ has_prefix (s2b "application/x-www-form-urlencoded") (header_value (s2b "Content-Type") hs) = false).
  { rewrite header_value_ci. assert (E : values_ci (s2b "Content-Type") hs = values_ci (s2b "Content-Type") lines) by (subst hs; own_value; reflexivity). rewrite E.
    destruct (values_ci (s2b "Content-Type") lines) as [|v r] eqn:V; [split; reflexivity|]. destruct (VC v r eq_refl) as [V1 V2].
    assert (PV : plain_value v) by (apply (value_plain (s2b "Content-Type") lines); [exact PL|rewrite V; left; reflexivity]).
    destruct (value_sendable _ (plain_value_chars _ PV)) as [_ ->].
    split; match goal with |- ?b = false => destruct b eqn:M; [apply prefix_iff in M; contradiction|reflexivity] end. }
  destruct HT as [HT1 HT2]. rewrite HT1.
  remember (if beqb (header_value (s2b "Expect") hs) (s2b "100-continue") then s2b "HTTP/1.1 100 Continue" ++ CRLF ++ CRLF else []) as first eqn:EF.
  unfold server_content. change (expects_content (s2b "POST")) with true. change (beqb (s2b "POST") (s2b "DELETE")) with false. cbn [negb andb orb].
  destruct (content_of_length hs s2 (body ++ more) c (blen body) [] H2) as (s3 & G & H3).
  { subst hs. own_value. exact VE. } { subst hs. own_value. exact VT. } { subst hs. own_value. exact VL. } { exact B. }
  rewrite G. replace (blen body <=? blen (body ++ more)) with true by (rewrite blen_app; lia). rewrite firstn_app_len, skipn_app_len in *. rewrite HT2. cbn [andb].
  destruct (ranged_response sv (mk_request (s2b "POST") path hs body) rs) as [routed r]. eexists _, s3, first. split; [rewrite EF; destruct (beqb _ _); [right|left]; reflexivity|]. split; [reflexivity|exact H3].
Qed.

(** *** The answer *)
Definition finish (close : bool) (method : bytes) (hs : headers) (r : response) : response :=
  let r := if close || beqb (header_value (s2b "Connection") hs) (s2b "close") then set_header (s2b "Connection") (s2b "close") r
           else set_header (s2b "Keep-Alive") (s2b "timeout=5, max=5") r in
  let r := if negb (mm_has (s2b "Content-Type") (rs_headers r)) && negb (beqb (rs_body r) []) then set_header (s2b "Content-Type") (s2b "text/plain") r else r in
  let r := if negb (mm_has (s2b "Content-Length") (rs_headers r)) && beqb (rs_body r) [] then set_header (s2b "Content-Length") (s2b "0") r else r in
  if negb (mm_has (s2b "Accept-Ranges") (rs_headers r)) && beqb method (s2b "HEAD") then set_header (s2b "Accept-Ranges") (s2b "bytes") r else r.
Definition started (r : response) : response := if (400 <=? rs_status r)%Z then error_handler r else r.
Lemma ranged_finish close method hs b rs routed r : routed = true \/ (400 <= rs_status r)%Z ->
  ranged_reply close method hs b rs routed r =
    let f := finish close method hs (apply_ranges b rs (started r)) in status_line (rs_status f) ++ CRLF ++ write_headers (rs_headers f) ++ (if beqb method (s2b "HEAD") then [] else rs_body f).
Proof.
  intro R. assert (RF : routed || (400 <=? rs_status r)%Z = true) by (destruct R as [->|R]; [reflexivity|]; replace (400 <=? rs_status r)%Z with true by lia; apply Bool.orb_true_r).
  unfold ranged_reply. cbv zeta. rewrite RF. unfold status_line. rewrite <- !app_assoc. reflexivity.
Qed.
Lemma finish_spec close method hs r : sized [dec_digits (blen (rs_body r))] r \/ sized [] r /\ rs_body r = [] ->
  let f := finish close method hs r in rs_status f = rs_status r /\ rs_body f = rs_body r /\ sized [dec_digits (blen (rs_body r))] f.
Proof.
  intros S2 f. unfold f, finish. cbv zeta. clear f. remember (if beqb (rs_body r) [] then match values_ci (s2b "Content-Length") (rs_headers r) with [] => [] | _ => [dec_digits (blen (rs_body r))] end else [dec_digits (blen (rs_body r))]) as lens eqn:EL.
  assert (S0 : sized lens r).
  { destruct S2 as [S|[S E]].
    - assert (lens = [dec_digits (blen (rs_body r))]) as ->; [|exact S]. rewrite EL. destruct S as (_ & _ & _ & _ & V). rewrite V. destruct (beqb _ _); reflexivity.
    - assert (lens = []) as ->; [|exact S]. rewrite EL, E. destruct S as (_ & _ & _ & _ & V). rewrite V. reflexivity. }
  match goal with |- context [if ?b then set_header (s2b "Connection") ?x r else ?y] => remember (if b then set_header (s2b "Connection") x r else y) as r3 eqn:E3 end.
  assert (S3 : sized lens r3) by (subst r3; destruct (close || _); (apply sized_const; [exact S0|reflexivity..])).
  assert (ST3 : rs_status r3 = rs_status r) by (subst r3; destruct (close || _); apply set_header_status).
  assert (BD3 : rs_body r3 = rs_body r) by (subst r3; destruct (close || _); apply set_header_body).
  clear E3 S0.
  match goal with |- context [if ?b then set_header (s2b "Content-Type") ?x r3 else ?y] => remember (if b then set_header (s2b "Content-Type") x r3 else y) as r4 eqn:E4 end.
  assert (S4 : sized lens r4) by (subst r4; destruct (negb _ && _); [apply sized_const; [exact S3|reflexivity..]|exact S3]).
  assert (ST4 : rs_status r4 = rs_status r3) by (subst r4; destruct (negb _ && _); [apply set_header_status|reflexivity]).
  assert (BD4 : rs_body r4 = rs_body r3) by (subst r4; destruct (negb _ && _); [apply set_header_body|reflexivity]).
  clear E4 S3.
  match goal with |- context [if ?b then set_header (s2b "Content-Length") ?x r4 else ?y] => remember (if b then set_header (s2b "Content-Length") x r4 else y) as r5 eqn:E5 end.
  assert (BDX : rs_body r4 = rs_body r) by congruence.
  assert (S5 : sized [dec_digits (blen (rs_body r))] r5).
  { subst r5. rewrite BDX. pose proof S4 as (_ & _ & _ & _ & V). rewrite mm_has_ci, V. rewrite EL in *. destruct (beqb (rs_body r) []) eqn:Q; cbn [negb andb]; [|exact S4].
    apply beqb_eq in Q. rewrite Q in *. destruct (values_ci (s2b "Content-Length") (rs_headers r)) as [|v l]; cbn [negb andb]; [|exact S4].
    change (dec_digits (blen [])) with (dec_digits 0). change (s2b "0") with (dec_digits 0). apply (sized_length [] 0 r4 S4). vm_compute. discriminate. }
  assert (ST5 : rs_status r5 = rs_status r4) by (subst r5; destruct (negb _ && _); [apply set_header_status|reflexivity]).
  assert (BD5 : rs_body r5 = rs_body r4) by (subst r5; destruct (negb _ && _); [apply set_header_body|reflexivity]).
  clear E5 S4.
  match goal with |- context [if ?b then set_header (s2b "Accept-Ranges") ?x r5 else ?y] => remember (if b then set_header (s2b "Accept-Ranges") x r5 else y) as r6 eqn:E6 end.
  assert (S6 : sized [dec_digits (blen (rs_body r))] r6) by (subst r6; destruct (negb _ && _); [apply sized_const; [exact S5|reflexivity..]|exact S5]).
  assert (ST6 : rs_status r6 = rs_status r5) by (subst r6; destruct (negb _ && _); [apply set_header_status|reflexivity]).
  assert (BD6 : rs_body r6 = rs_body r5) by (subst r6; destruct (negb _ && _); [apply set_header_body|reflexivity]).
  split; [congruence|]. split; [congruence|]. exact S6.
Qed.

(** A response that can be read, after a 100 Continue or not. *)
Lemma read_after f s c more first : sized [dec_digits (blen (rs_body f))] f -> blen (rs_body f) <= SIZE_MAX -> (101 <= rs_status f <= 999)%Z -> first = [] \/ first = CONTINUE ->
  holds ((first ++ status_line (rs_status f) ++ CRLF ++ write_headers (rs_headers f) ++ rs_body f) ++ more) c s ->
  client_reply s = Replied (rs_status f) (received (rs_status f) (rs_body f)).
Proof.
  intros (_ & U & CE & TE & CL) LF ST FF H. rewrite <- !app_assoc in H.
  assert (NE : beqb (st_data s) [] = false) by (destruct H as [-> _]; destruct FF as [-> | ->]; reflexivity).
  unfold client_reply. rewrite NE. cbn [andb].
  destruct FF as [-> | ->].
  - cbn [app] in H. rewrite (response_read s c _ _ _ _ H ST U CE TE CL LF). reflexivity.
  - remember (status_line (rs_status f) ++ CRLF ++ write_headers (rs_headers f) ++ rs_body f ++ more) as d eqn:ED.
    assert (CD : cut_line d = Some (status_line (rs_status f) ++ CRLF, write_headers (rs_headers f) ++ rs_body f ++ more)).
    { rewrite ED. replace (status_line (rs_status f) ++ CRLF ++ write_headers (rs_headers f) ++ rs_body f ++ more)
        with ((status_line (rs_status f) ++ [13]) ++ 10 :: (write_headers (rs_headers f) ++ rs_body f ++ more)) by (rewrite <- !app_assoc; reflexivity).
      rewrite cut_line_first; [rewrite <- app_assoc; reflexivity|]. apply Forall_app. split; [|repeat constructor; discriminate]. eapply Forall_impl; [|apply status_line_chars]. cbn. intuition. }
    destruct (continue_read s c d H (ex_intro _ _ (ex_intro _ _ CD))) as (s1 & H1 & K). rewrite CD in K. cbn [fst] in K.
    rewrite upto_nul_plain in K by (apply Forall_app; split; [eapply Forall_impl; [|apply status_line_chars]; cbn; intuition|repeat constructor; discriminate]).
    rewrite match_line in K by lia. rewrite ED in H1. pose proof (response_read s1 c _ _ _ _ H1 ST U CE TE CL LF) as RR. revert RR. unfold read_response.
    destruct (read_response_line s1) as [[z|] s2] eqn:RL; [|discriminate].
    assert (Z0 : z = rs_status f).
    { revert RL. unfold read_response_line. rewrite ED in CD. pose proof (getline_spec s1 _ c H1) as G. rewrite CD in G. destruct G as (s3 & -> & _).
      rewrite upto_nul_plain by (apply Forall_app; split; [eapply Forall_impl; [|apply status_line_chars]; cbn; intuition|repeat constructor; discriminate]).
      rewrite match_line by lia. cbn [after_continue]. replace (rs_status f =? 100)%Z with false by lia. intro E. injection E as <- _. reflexivity. }
    subst z. rewrite (K _ s2 eq_refl ltac:(lia) eq_refl). intro RR. rewrite RR. reflexivity.
Qed.

(** *** One range *)
Lemma started_spec r : bare r -> sized [] (started r) /\ rs_status (started r) = rs_status r /\ rs_body (started r) = sent_text (rs_status r) (rs_body r).
Proof.
  intro B. unfold started, sent_text. destruct (400 <=? rs_status r)%Z.
  - split; [apply sized_error, bare_sized, B|]. split; [apply error_handler_status|]. rewrite error_handler_body. destruct (rs_body r); reflexivity.
  - split; [apply bare_sized, B|]. split; [reflexivity|]. destruct (rs_body r); reflexivity.
Qed.
Lemma text_digits z : (0 <= z)%Z -> to_text z = dec_digits (Z.to_N z).
Proof. apply to_text_port. Qed.
Lemma content_range_plain w len : want_ok w -> len <= SIZE_MAX -> usual_line (s2b "Content-Range", content_range (want_range w) len) /\ sendable (content_range (want_range w) len).
Proof.
  intros OK L.
  assert (E : content_range (want_range w) len = s2b "bytes " ++ fst (sides w) ++ [45] ++ snd (sides w) ++ [47] ++ dec_digits len).
  { unfold content_range. destruct w as [a b|a|n]; cbn [want_range fst snd sides].
    - replace (Z.of_N a =? -1)%Z with false by lia. replace (Z.of_N b =? -1)%Z with false by lia. rewrite !text_digits, !N2Z.id by lia. reflexivity.
    - replace (Z.of_N a =? -1)%Z with false by lia. change (-1 =? -1)%Z with true. cbv iota. rewrite !text_digits, !N2Z.id by lia. reflexivity.
    - replace (Z.of_N n =? -1)%Z with false by lia. change (-1 =? -1)%Z with true. cbv iota. rewrite !text_digits, !N2Z.id by lia. reflexivity. }
  assert (D : forall n, n <= SIZE_MAX -> blen (dec_digits n) <= 64) by (intros n Q; apply digits_length; [change (2 ^ 64) with 18446744073709551616; unfold SIZE_MAX in Q; lia|reflexivity]).
  assert (DS : blen (fst (sides w)) <= 64 /\ blen (snd (sides w)) <= 64).
  { destruct w as [a b|a|n]; cbn [sides fst snd want_ok] in *; (split; [|]); try (apply D; unfold SIZE_MAX; lia); vm_compute; discriminate. }
  assert (PL : plain_value (content_range (want_range w) len)).
  { rewrite E. destruct (sides_digit w) as [F1 F2]. assert (FP : forall l, Forall digit l -> Forall plain_wire l) by (intros l F; eapply Forall_impl; [|exact F]; intros c Q; apply digit_plain, Q).
    rewrite !app_assoc. apply plain_value_app; [|apply digits_plain|].
    - rewrite !Forall_app. repeat split; try (apply FP; assumption); repeat constructor; discriminate.
    - exists 98. eexists. split; [reflexivity|]. unfold blank_char. lia. }
  split; [|apply plain_sendable, PL]. left. apply plain_named; [reflexivity|exact PL|]. rewrite E, !blen_app. specialize (D len L). change (blen (s2b "Content-Range")) with 13. change (blen (s2b "bytes ")) with 6. change (blen [45]) with 1. change (blen [47]) with 1. lia.
Qed.
Lemma set_header_keeps k v r b : set_body b (set_header k v r) = set_header k v (set_body b r).
Proof. unfold set_header, set_body. cbn [rs_status rs_headers rs_body]. destruct (_ || _); reflexivity. Qed.
Lemma substr_length o l s : blen (substr o l s) <= blen s.
Proof. unfold substr, blen. rewrite firstn_length, skipn_length. lia. Qed.
Lemma apply_one b w r : sized [] r -> want_ok w -> blen (rs_body r) <= LLONG_MAX ->
  let a := apply_ranges b [want_range w] r in
  (rs_body r = [] -> a = r) /\
  (rs_body r <> [] -> there w (blen (rs_body r)) -> rs_status a = rs_status r /\ rs_body a = asked w (rs_body r) /\ sized [dec_digits (blen (rs_body a))] a) /\
  (rs_body r <> [] -> ~ there w (blen (rs_body r)) -> rs_status a = 416%Z /\ rs_body a = [] /\ sized [dec_digits (blen (rs_body a))] a).
Proof.
  intros S OK L a. unfold a, apply_ranges. clear a. destruct (rs_body r) as [|x t] eqn:E; [split; [reflexivity|split; intro Q; congruence]|]. split; [discriminate|].
  remember (x :: t) as body eqn:EB. assert (NE : body <> []) by (subst body; discriminate). replace (match rs_body r with [] => r | _ => _ end) with
    (let r' := (let r0 := set_header (s2b "Content-Range") (content_range (want_range w) (blen body)) r in
        let '(offset, len) := range_place (blen body) (want_range w) in
        if offset <? blen body then set_body (substr offset len body) r0 else set_status 416 (set_body [] r0)) in
     set_header (s2b "Content-Length") (dec_digits (blen (rs_body r'))) r') by (rewrite E, EB; reflexivity).
  cbv zeta. clear E EB x t. destruct (place_one w body OK L NE) as [P1 P2]. destruct (range_place (blen body) (want_range w)) as [o l]. cbn [fst snd] in *.
  assert (LS : blen body <= SIZE_MAX) by (unfold LLONG_MAX, SIZE_MAX in *; lia). destruct (content_range_plain w (blen body) OK LS) as [UL SD].
  assert (S1 : sized [] (set_header (s2b "Content-Range") (content_range (want_range w) (blen body)) r)) by (apply sized_other; [exact S|exact UL|apply crlf_sendable; reflexivity|exact SD|reflexivity]).
  split; intros _ T.
  - replace (o <? blen body) with true by (apply P1 in T; lia). rewrite (P2 T). rewrite set_header_status, set_header_body. cbn [set_body rs_status rs_body]. rewrite set_header_status. split; [reflexivity|]. split; [reflexivity|].
    apply (sized_length []); [exact S1|]. rewrite <- (P2 T). pose proof (substr_length o l body). lia.
  - replace (o <? blen body) with false by (destruct (N.ltb_spec o (blen body)) as [Q|Q]; [exfalso; apply T, P1, Q|reflexivity]). rewrite set_header_status, set_header_body. cbn [set_status set_body rs_status rs_body]. split; [reflexivity|]. split; [reflexivity|].
    apply (sized_length []); [exact S1|]. vm_compute. discriminate.
Qed.
