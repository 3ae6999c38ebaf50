(** Whatever arrives: which bytes are the body of a request, and how each request is answered. *)
From Coq Require Import ZifyBool ZifyNat ZifyN Sorted.
From Verif Require Import Base PBase MSerialize MHttp SHttp PHttp MTls MWire SWire PWire PWire2 PWire3 PWire4 PWire5 PWire6.
Open Scope N_scope.

(** ** The bytes of a request *)

Lemma block_head : forall fuel hs d hs' r, block fuel hs d = (true, hs', r) -> exists u, d = u ++ CRLF ++ r.
Proof.
  induction fuel as [|fuel IH]; intros hs d hs' r; cbn [block]; [discriminate|].
  destruct (cut_line d) as [[l t]|] eqn:E; [|discriminate]. pose proof (cut_line_app d l t E) as [D _].
  destruct (end_with_crlf l) eqn:C; cbn [negb].
  - destruct (blen l =? 2) eqn:B2.
    + intro H. injection H as _ <-. apply crlf_has_lf in C as (a & ->). exists a. rewrite D, <- app_assoc. reflexivity.
    + destruct (MAX_LENGTH <? blen l); [discriminate|]. intro H. apply IH in H as (u & ->). exists (l ++ u). rewrite D, <- app_assoc. reflexivity.
  - intro H. apply IH in H as (u & ->). exists (l ++ u). rewrite D, <- app_assoc. reflexivity.
Qed.
Lemma read_headers_head s hs s' : read_headers s = (true, hs, s') -> exists u, st_data s = u ++ CRLF ++ st_data s' /\ st_closed s' = st_closed s.
Proof.
  intro E. destruct (read_headers_spec s _ _ (holds_self s)) as (s1 & ok & h & r & G & B & H). rewrite E in G. injection G as <- <- <-.
  apply block_head in B as (u & B). destruct H as [-> C]. exists u. split; [exact B|exact C].
Qed.
Lemma getline_head s l s' : getline s = (Some l, s') -> st_data s = l ++ st_data s' /\ st_closed s' = st_closed s.
Proof.
  intro E. pose proof (getline_spec s _ _ (holds_self s)) as G. destruct (cut_line (st_data s)) as [[a r]|] eqn:CL.
  - destruct G as (s1 & G & H). rewrite E in G. injection G as -> ->. apply cut_line_app in CL as [CL _]. destruct H as [H1 H2]. rewrite H1. split; assumption.
  - destruct G as (s1 & G & H). rewrite E in G. destruct (st_closed s && _); [|discriminate]. injection G as -> ->. destruct H as [H1 H2]. rewrite H1, app_nil_r. split; [reflexivity|exact H2].
Qed.
(** The value of a header that is not to be decoded as a length is one that is no number. *)

Lemma content_bytes hs s body hs' s' : values_ci (s2b "Transfer-Encoding") hs = [] -> read_content hs s = (Content body hs', s') ->
  hs' = hs /\ st_data s = body ++ st_data s' /\ (values_ci (s2b "Content-Length") hs = [] -> st_data s' = []) /\ (forall n, announces hs n -> n <= SIZE_MAX -> blen body = n).
Proof.
  intros T. unfold read_content. rewrite !header_value_ci, T. destruct (_ || _ || _); [discriminate|].
  change (same_ignoring_case [] (s2b "chunked")) with false. cbn iota. rewrite mm_has_ci. destruct (values_ci (s2b "Content-Length") hs) as [|v vs] eqn:V; cbn [negb].
  - destruct (without_length_spec s _ _ (holds_self s)) as (s1 & W & [H1 H2]). rewrite W. intro E. injection E as <- <- <-. rewrite H1, app_nil_r. repeat split; try assumption.
    intros n (r & A) _. rewrite V in A. discriminate A.
  - destruct (with_length_spec (fst (strtoul 10 (upto_nul v))) [] s _ _ (holds_self s)) as (s1 & W & [H1 H2]). rewrite W. cbn [app].
    destruct (N.leb_spec (fst (strtoul 10 (upto_nul v))) (blen (st_data s))) as [LE|]; [|discriminate]. intro E. injection E as <- <- <-.
    rewrite H1. split; [reflexivity|]. split; [symmetry; apply firstn_skipn|]. split; [discriminate|]. intros n (r & A) LN. rewrite V in A. injection A as -> _.
    destruct (value_sendable _ (plain_value_chars _ (digits_plain n))) as [_ Q]. rewrite Q in *. rewrite strtoul_digits in * by (exact LN). cbn [fst] in *.
    unfold blen in *. rewrite firstn_length. lia.
Qed.

Lemma request_framed cn sv close s w req again s' : process_turn cn sv close s = Turn w (Some req) again s' -> values_ci (s2b "Transfer-Encoding") (rq_headers req) = [] ->
  exists head, st_data s = head ++ CRLF ++ rq_body req ++ st_data s' /\
    (rq_method req = s2b "POST" ->
      (values_ci (s2b "Content-Length") (rq_headers req) = [] -> st_data s' = []) /\ (forall n, announces (rq_headers req) n -> n <= SIZE_MAX -> blen (rq_body req) = n)).
Proof.
  unfold process_turn. destruct (getline s) as [[line|] s1] eqn:G; [|discriminate]. apply getline_head in G as [G _].
  destruct (MAX_LENGTH <? blen line); [destruct (read_headers s1) as [[a b] s2]; discriminate|].
  remember (parse_request_line (upto_nul line)) as rl. destruct (negb (rl_ok rl)); [discriminate|].
  destruct (read_headers s1) as [[ok hs] s2] eqn:H. destruct ok; cbn [negb]; [|discriminate]. apply read_headers_head in H as (u & H & _).
  remember (add_addresses cn hs) as hs1. destruct (mm_has (s2b "Range") hs1); [discriminate|]. destruct (expects_content (rl_method rl) && _); [discriminate|].
  unfold server_content. destruct (negb (expects_content (rl_method rl)) || _) eqn:X.
  - destruct (routed_response sv _) as [routed r]. intro E. injection E as _ <- _ <-. cbn [rq_body rq_headers rq_method]. intro T.
    exists (line ++ u). split; [rewrite G, H, <- app_assoc; reflexivity|]. intro M. rewrite M in X. vm_compute in X. discriminate X.
  - destruct (read_content hs1 s2) as [[body hs2|z hs2] s3] eqn:RC; [|discriminate]. destruct (has_prefix (s2b "application/x-www-form-urlencoded") _ && _); [discriminate|].
    destruct (routed_response sv _) as [routed r]. intro E. injection E as _ <- _ <-. cbn [rq_body rq_headers rq_method]. intro T.
    assert (T1 : values_ci (s2b "Transfer-Encoding") hs1 = []).
    { destruct (values_ci (s2b "Transfer-Encoding") hs1) as [|v vs] eqn:V; [reflexivity|]. exfalso. revert RC. unfold read_content. destruct (_ || _ || _); [discriminate|].
      rewrite (header_value_ci (s2b "Transfer-Encoding")), V. destruct (same_ignoring_case _ _) eqn:CH.
      - destruct (chunked hs1 s2) as [[[okc bc] hc] sc] eqn:CK. destruct okc; [|discriminate]. intro E. injection E as _ -> _.
        assert (K : forall fuel h line0 s0 ok0 h0 s9, trailers fuel h line0 s0 = (ok0, h0, s9) -> incl (values_ci (s2b "Transfer-Encoding") h) (values_ci (s2b "Transfer-Encoding") h0)).
        { assert (K1 : forall l h, incl (values_ci (s2b "Transfer-Encoding") h) (values_ci (s2b "Transfer-Encoding") (add_parsed l h))).
          { intros l h x I. unfold add_parsed. destruct (parse_header l) as [[k y]|]; [|exact I]. unfold values_ci in *. apply in_map_iff in I as (e & <- & I).
            apply in_map. apply filter_In in I as [I1 I2]. apply filter_In. split; [|exact I2]. apply emplace_in. right. exact I1. }
          induction fuel as [|fuel IH]; intros h l0 s0 ok0 h0 s9; cbn [trailers]; (destruct (beqb (upto_nul l0) CRLF); [intro E; injection E as _ <- _; apply incl_refl|]);
            (destruct (MAX_LENGTH <? blen l0); [intro E; injection E as _ <- _; apply incl_refl|]).
          - intro E; injection E as _ <- _; apply incl_refl.
          - cbv zeta. destruct (getline s0) as [[l|] s5]; [intro E; apply IH in E; eapply incl_tran; [apply K1|exact E]|intro E; injection E as _ <- _; apply K1]. }
        assert (K2 : forall fuel h acc s0 ok0 b0 h0 s9, chunks fuel h acc s0 = (ok0, b0, h0, s9) -> incl (values_ci (s2b "Transfer-Encoding") h) (values_ci (s2b "Transfer-Encoding") h0)).
        { induction fuel as [|fuel IH]; intros h acc s0 ok0 b0 h0 s9; cbn [chunks]; [intro E; injection E as _ _ <- _; apply incl_refl|].
          destruct (getline s0) as [[l|] s5]; [|intro E; injection E as _ _ <- _; apply incl_refl]. destruct (strtoul 16 (upto_nul l)) as [len number].
          destruct (negb number || (len =? ULONG_MAX)); [intro E; injection E as _ _ <- _; apply incl_refl|]. destruct (len =? 0).
          - destruct (getline s5) as [[l2|] s6]; [|intro E; injection E as _ _ <- _; apply incl_refl]. destruct (trailers (List.length (st_data s6)) h l2 s6) as [[o t] s7] eqn:TR.
            intro E. injection E as _ _ <- _. eapply K. exact TR.
          - destruct (with_length len acc s5) as [[o a] s6]. destruct (negb o); [intro E; injection E as _ _ <- _; apply incl_refl|].
            destruct (getline s6) as [[l2|] s7]; [|intro E; injection E as _ _ <- _; apply incl_refl]. destruct (beqb (upto_nul l2) CRLF); [apply IH|intro E; injection E as _ _ <- _; apply incl_refl]. }
        unfold chunked in CK. apply K2 in CK. rewrite V, T in CK. exact (CK v (or_introl eq_refl)).
      - destruct (negb (mm_has (s2b "Content-Length") hs1)).
        + destruct (without_length s2) as [bb ss]. intro E. injection E as _ <- _. rewrite V in T. discriminate T.
        + destruct (with_length _ [] s2) as [[oo bb] ss]. destruct oo; [|discriminate]. intro E. injection E as _ <- _. rewrite V in T. discriminate T. }
    destruct (content_bytes hs1 s2 body hs2 s3 T1 RC) as (E1 & E2 & E3 & E4). subst hs2.
    exists (line ++ u). split; [rewrite G, H, E2, <- !app_assoc; reflexivity|]. intros _. split; assumption.
Qed.

(** ** How a request is answered *)

Lemma part_refl s : part_of s s.
Proof. exists [], []. rewrite app_nil_r. reflexivity. Qed.
Lemma part_trans p q s : part_of p q -> part_of q s -> part_of p s.
Proof. intros (a & b & ->) (c & d & ->). exists (c ++ a), (b ++ d). rewrite <- !app_assoc. reflexivity. Qed.
Lemma part_right p s : part_of s (p ++ s).
Proof. exists p, []. rewrite app_nil_r. reflexivity. Qed.
Lemma part_left p s : part_of s (s ++ p).
Proof. exists [], p. reflexivity. Qed.
Lemma trim_left_part s : part_of (trim_left s) s.
Proof. induction s as [|c s IH]; cbn [trim_left]; [apply part_refl|]. destruct (space_or_tab c); [|apply part_refl]. eapply part_trans; [exact IH|]. apply (part_right [c]). Qed.
Lemma trim_part s : part_of (trim s) s.
Proof.
  unfold trim, trim_right. eapply part_trans; [|apply trim_left_part]. remember (trim_left s) as t. destruct (trim_left_part (rev t)) as (a & b & E).
  exists (rev b), (rev a). apply (f_equal (@rev N)) in E. rewrite rev_involutive, !rev_app_distr in E. rewrite app_assoc. exact E.
Qed.
Lemma parts_part : forall s m d acc q, In q (parts m d acc s) -> part_of q (rev acc ++ s).
Proof.
  induction s as [|c s IH]; intros m d acc q; cbn [parts].
  - intros [<-|[]]. rewrite app_nil_r. apply part_refl.
  - assert (S1 : forall m', In q (parts m' d (c :: acc) s) -> part_of q (rev acc ++ c :: s)).
    { intros m' I. apply IH in I. cbn [rev] in I. rewrite <- app_assoc in I. exact I. }
    destruct m as [|[|m]]; try apply S1. destruct (c =? d); [|apply S1]. intros [<-|I]; [apply part_left|]. apply IH in I. cbn [rev app] in I.
    eapply part_trans; [exact I|]. eapply part_trans; [apply (part_right [c])|apply part_right].
Qed.
Lemma split_part m d s q : In q (split m d s) -> part_of q s.
Proof. unfold split. intro I. apply filter_In in I as [I _]. apply in_map_iff in I as (x & <- & I). apply parts_part in I. eapply part_trans; [apply trim_part|exact I]. Qed.
Lemma method_part line : rl_method (parse_request_line line) = [] \/ part_of (rl_method (parse_request_line line)) line.
Proof.
  unfold parse_request_line. destruct (negb (end_with_crlf line)); [left; reflexivity|]. cbv zeta.
  remember (split (S (S (List.length line))) 32 (firstn (List.length line - 2) line)) as p.
  assert (Q : nth 0 p [] = [] \/ part_of (nth 0 p []) line).
  { destruct p as [|m p]; [left; reflexivity|right]. cbn [nth]. assert (I : In m (split (S (S (List.length line))) 32 (firstn (List.length line - 2) line))) by (rewrite <- Heqp; left; reflexivity).
    apply split_part in I. eapply part_trans; [exact I|]. exists [], (skipn (List.length line - 2) line). symmetry. apply firstn_skipn. }
  destruct (_ || _ || _); exact Q.
Qed.
Lemma upto_nul_part s : part_of (upto_nul s) s.
Proof.
  exists []. induction s as [|c s (b & IH)]; cbn [upto_nul]; [exists []; reflexivity|]. destruct (c =? 0); [exists (c :: s); reflexivity|]. exists b. cbn [app] in *. rewrite <- IH. reflexivity.
Qed.

Definition CONTINUE : bytes := s2b "HTTP/1.1 100 Continue" ++ CRLF ++ CRLF.
(** An answer is read alike after a 100 Continue. *)
Lemma continue_read s c d : holds (CONTINUE ++ d) c s -> (exists l r, cut_line d = Some (l, r)) ->
  exists s', holds d c s' /\ (forall z s2, match_status (upto_nul (fst (match cut_line d with Some x => x | None => ([], []) end))) = Some z -> (z =? 100)%Z = false -> read_response_line s' = (Some z, s2) -> read_response_line s = (Some z, s2)).
Proof.
  intros H (l & r & CD). unfold CONTINUE in H.
  change ((s2b "HTTP/1.1 100 Continue" ++ CRLF ++ CRLF) ++ d) with ((s2b "HTTP/1.1 100 Continue" ++ [13]) ++ 10 :: ([13] ++ 10 :: d)) in H.
  destruct (getline_line s _ _ c H) as (s1 & G1 & H1); [repeat constructor; discriminate|].
  destruct (getline_line s1 _ _ c H1) as (s2 & G2 & H2); [repeat constructor; discriminate|].
  exists s2. split; [exact H2|]. intros z s3 M NZ R. rewrite CD in M. cbn [fst] in M.
  pose proof (getline_spec s2 d c H2) as G3. rewrite CD in G3. destruct G3 as (s4 & G3 & H4).
  unfold read_response_line in R. rewrite G3, M in R. cbn [after_continue] in R. rewrite NZ in R. injection R as <-.
  unfold read_response_line. rewrite G1. change (match_status (upto_nul ((s2b "HTTP/1.1 100 Continue" ++ [13]) ++ [10]))) with (Some 100%Z).
  cbn [after_continue]. change (100 =? 100)%Z with true. cbn iota. rewrite G2, G3, M.
  destruct H1 as [D1 _]. rewrite D1. cbn [List.length app after_continue]. rewrite NZ. reflexivity.
Qed.

Lemma reply_after close method hs routed r s c more first : bare r -> routed = true \/ (400 <= rs_status r)%Z -> blen (rs_body r) <= SIZE_MAX -> (101 <= rs_status r <= 999)%Z ->
  beqb method (s2b "HEAD") = false -> first = [] \/ first = CONTINUE ->
  holds ((first ++ server_reply close method hs routed r) ++ more) c s ->
  client_reply s = Replied (rs_status r) (received (rs_status r) (sent_text (rs_status r) (rs_body r))).
Proof.
  intros B R L ST NH FF H. destruct (added_spec close hs method routed r B R L) as (A1 & A2 & A3). rewrite reply_added, NH in H. rewrite A1 in H.
  remember (added close method hs routed r) as f. rewrite <- !app_assoc in H. destruct A3 as (_ & U & CE & TE & CL).
  assert (LF : blen (rs_body f) <= SIZE_MAX). { rewrite A2. unfold sent_text. destruct (rs_body r); [destruct (400 <=? rs_status r)%Z; vm_compute; discriminate|exact L]. }
  assert (NE : beqb (st_data s) [] = false) by (destruct H as [-> _]; destruct FF as [-> | ->]; reflexivity).
  unfold client_reply. rewrite NE. cbn [andb].
  destruct FF as [-> | ->].
  - cbn [app] in H. rewrite (response_read s c _ _ _ _ H ST U CE TE CL LF), A2. reflexivity.
  - remember (status_line (rs_status r) ++ CRLF ++ write_headers (rs_headers f) ++ rs_body f ++ more) as d eqn:ED.
    assert (CD : cut_line d = Some (status_line (rs_status r) ++ CRLF, write_headers (rs_headers f) ++ rs_body f ++ more)).
    { rewrite ED. replace (status_line (rs_status r) ++ CRLF ++ write_headers (rs_headers f) ++ rs_body f ++ more)
        with ((status_line (rs_status r) ++ [13]) ++ 10 :: (write_headers (rs_headers f) ++ rs_body f ++ more)) by (rewrite <- !app_assoc; reflexivity).
      rewrite cut_line_first; [rewrite <- app_assoc; reflexivity|]. apply Forall_app. split; [|repeat constructor; discriminate]. eapply Forall_impl; [|apply status_line_chars]. cbn. intuition. }
    destruct (continue_read s c d H (ex_intro _ _ (ex_intro _ _ CD))) as (s1 & H1 & K). rewrite CD in K. cbn [fst] in K.
    rewrite upto_nul_plain in K by (apply Forall_app; split; [eapply Forall_impl; [|apply status_line_chars]; cbn; intuition|repeat constructor; discriminate]).
    rewrite match_line in K by lia. rewrite ED in H1. pose proof (response_read s1 c _ _ _ _ H1 ST U CE TE CL LF) as RR. revert RR. unfold read_response.
    destruct (read_response_line s1) as [[z|] s2] eqn:RL; [|discriminate].
    assert (Z0 : z = rs_status r).
    { revert RL. unfold read_response_line. rewrite ED in CD. pose proof (getline_spec s1 _ c H1) as G. rewrite CD in G. destruct G as (s3 & -> & _).
      rewrite upto_nul_plain by (apply Forall_app; split; [eapply Forall_impl; [|apply status_line_chars]; cbn; intuition|repeat constructor; discriminate]).
      rewrite match_line by lia. cbn [after_continue]. replace (rs_status r =? 100)%Z with false by lia. intro E. injection E as <- _. reflexivity. }
    subst z. rewrite (K _ s2 eq_refl ltac:(lia) eq_refl). intro RR. rewrite RR, A2. reflexivity.
Qed.

Lemma refused_status hs s z hs' s' : read_content hs s = (Refused z hs', s') -> In z [400; 415]%Z.
Proof.
  unfold read_content. destruct (_ || _ || _); [intro E; injection E as <- _ _; right; left; reflexivity|]. destruct (same_ignoring_case _ _).
  - destruct (chunked hs s) as [[[ok b] h] t]. destruct ok; [discriminate|]. intro E. injection E as <- _ _. left. reflexivity.
  - destruct (negb _); [destruct (without_length s); discriminate|]. destruct (with_length _ [] s) as [[ok b] t]. destruct ok; [discriminate|]. intro E. injection E as <- _ _. left. reflexivity.
Qed.
Lemma sc_refused method hs s z hs' s' : server_content method hs s = (Refused z hs', s') -> In z [400; 413; 415]%Z.
Proof.
  unfold server_content. destruct (_ || _); [discriminate|]. destruct (read_content hs s) as [[b h|y h] t] eqn:E.
  - destruct (_ && _); [|discriminate]. intro X. injection X as <- _ _. right. left. reflexivity.
  - apply refused_status in E. intro X. injection X as <- _ _. cbn [In] in *. tauto.
Qed.

Lemma not_handled_answered cn sv close s w again s' : process_turn cn sv close s = Turn w None again s' -> ~ part_of (s2b "HEAD") (st_data s) ->
  exists z, In z [400; 413; 414; 415]%Z /\ forall more pick orderly, client_reply (mk_stream (w ++ more) pick 0 orderly) = Replied z (s2b "Router error").
Proof.
  intros E NH.
  assert (K : forall close method hs z first, (400 <= z <= 415)%Z -> first = [] \/ first = CONTINUE -> beqb method (s2b "HEAD") = false -> w = first ++ server_reply close method hs false (failure z) -> forall more pick orderly,
    client_reply (mk_stream (w ++ more) pick 0 orderly) = Replied z (s2b "Router error")).
  { intros cl method hs z first Z0 FF M -> more pick orderly.
    pose proof (reply_after cl method hs false (failure z) (mk_stream ((first ++ server_reply cl method hs false (failure z)) ++ more) pick 0 orderly) orderly more first (bare_none z []) (or_intror (proj1 Z0)) ltac:(vm_compute; discriminate) ltac:(cbn [failure rs_status]; lia) M FF ltac:(split; reflexivity)) as G.
    rewrite G. cbn [failure rs_status rs_body]. unfold received, sent_text. replace (z =? 204)%Z with false by lia. replace (400 <=? z)%Z with true by lia. reflexivity. }
  unfold process_turn in E. destruct (getline s) as [[line|] s1] eqn:G; [|discriminate]. apply getline_head in G as [G _].
  destruct (MAX_LENGTH <? blen line).
  - destruct (read_headers s1) as [[a b] s2]. injection E as <- _ _. exists 414%Z. split; [cbn [In]; tauto|]. apply (K close [] [] 414%Z []); [lia|left; reflexivity|reflexivity|reflexivity].
  - remember (parse_request_line (upto_nul line)) as rl eqn:RL.
    assert (M : beqb (rl_method rl) (s2b "HEAD") = false).
    { apply beqb_neq. intro Q. destruct (method_part (upto_nul line)) as [X|X]; rewrite <- RL, Q in X; [discriminate X|]. apply NH. rewrite G.
      eapply part_trans; [exact X|]. eapply part_trans; [apply upto_nul_part|]. apply part_left. }
    destruct (negb (rl_ok rl)).
    { injection E as <- _ _. exists 400%Z. split; [cbn [In]; tauto|]. apply (K close (rl_method rl) [] 400%Z []); [lia|left; reflexivity|exact M|reflexivity]. }
    destruct (read_headers s1) as [[ok hs] s2]. destruct ok; cbn [negb] in E.
    + remember (add_addresses cn hs) as hs1. destruct (mm_has (s2b "Range") hs1); [discriminate|]. destruct (expects_content (rl_method rl) && _); [discriminate|].
      destruct (server_content (rl_method rl) hs1 s2) as [[body hs2|z hs2] s3] eqn:SC; [destruct (routed_response sv _); discriminate|]. injection E as <- _ _. apply sc_refused in SC.
      exists z. split; [cbn [In] in *; tauto|]. eapply (K close (rl_method rl) hs2 z); [cbn [In] in SC; lia| |exact M|reflexivity].
      destruct (beqb (header_value (s2b "Expect") hs1) (s2b "100-continue")); [right|left]; reflexivity.
    + injection E as <- _ _. exists 400%Z. split; [cbn [In]; tauto|]. apply (K close (rl_method rl) hs 400%Z []); [lia|left; reflexivity|exact M|reflexivity].
Qed.
Lemma handled_answered cn sv close s w req again s' : usual_server sv req -> process_turn cn sv close s = Turn w (Some req) again s' -> rq_method req = s2b "POST" ->
  let p := process_request sv req in (101 <= rs_status p <= 999)%Z ->
  forall more pick orderly, client_reply (mk_stream (w ++ more) pick 0 orderly) = Replied (rs_status p) (received (rs_status p) (rs_body p)).
Proof.
  intros U E M p ST more pick orderly. unfold process_turn in E. destruct (getline s) as [[line|] s1]; [|discriminate].
  destruct (MAX_LENGTH <? blen line); [destruct (read_headers s1) as [[a b] s2]; discriminate|].
  remember (parse_request_line (upto_nul line)) as rl. destruct (negb (rl_ok rl)); [discriminate|].
  destruct (read_headers s1) as [[ok hs] s2]. destruct ok; cbn [negb] in E; [|discriminate].
  remember (add_addresses cn hs) as hs1. destruct (mm_has (s2b "Range") hs1); [discriminate|]. destruct (expects_content (rl_method rl) && _); [discriminate|].
  destruct (server_content (rl_method rl) hs1 s2) as [[body hs2|z hs2] s3]; [|discriminate].
  destruct (routed_response sv (mk_request (rl_method rl) (rl_path rl) hs2 body)) as [routed r] eqn:RR. injection E as EW ER _ _. rewrite ER in RR.
  pose proof (routed_ok sv req U M) as RO. pose proof (routed_sent sv req M) as RS. rewrite RR in RO, RS. destruct RO as (R1 & R2 & R3). destruct RS as [S1 S2].
  unfold p in *. rewrite S1, S2 in *. rewrite <- EW.
  assert (RM : rl_method rl = s2b "POST") by (rewrite <- ER in M; exact M). rewrite RM.
  eapply (reply_after close (s2b "POST") hs2 routed r _ orderly more (if beqb (header_value (s2b "Expect") hs1) (s2b "100-continue") then s2b "HTTP/1.1 100 Continue" ++ CRLF ++ CRLF else [])); try assumption; try reflexivity.
  - destruct (beqb (header_value (s2b "Expect") hs1) (s2b "100-continue")); [right|left]; reflexivity.
  - split; [|reflexivity]. cbn [st_data]. reflexivity.
Qed.
Lemma gone_exact cn sv close s : process_turn cn sv close s = Gone <-> (Forall (fun c => c <> 10) (st_data s) /\ (st_closed s = false \/ st_data s = [])).
Proof.
  pose proof (getline_spec s _ _ (holds_self s)) as G. unfold process_turn. destruct (cut_line (st_data s)) as [[l r]|] eqn:CL.
  - destruct G as (s1 & -> & _). split.
    + intro E. exfalso. revert E. destruct (MAX_LENGTH <? blen l); [destruct (read_headers s1) as [[a b] s2]; discriminate|]. destruct (negb (rl_ok _)); [discriminate|].
      destruct (read_headers s1) as [[ok hs] s2]. destruct ok; cbn [negb]; [|discriminate]. destruct (mm_has _ _); [discriminate|]. destruct (expects_content _ && _); [discriminate|].
      destruct (server_content _ _ s2) as [[body hs2|z hs2] s3]; [destruct (routed_response sv _)|]; discriminate.
    + intros [F _]. apply cut_line_none in F. rewrite F in CL. discriminate.
  - apply cut_line_none in CL. destruct G as (s1 & G & _). rewrite G. destruct (st_closed s && negb (beqb (st_data s) [])) eqn:X.
    + apply andb_prop in X as [X1 X2]. apply Bool.negb_true_iff, beqb_neq in X2. split; [|intros [_ [Q|Q]]; [congruence|contradiction]].
      destruct (MAX_LENGTH <? blen (st_data s)); [destruct (read_headers s1) as [[a b] s2]; discriminate|].
      unfold parse_request_line. rewrite (no_lf_no_crlf _ (upto_nul_forall _ _ CL)). discriminate.
    + split; [intros _|reflexivity]. split; [exact CL|]. destruct (st_closed s); [right|left; reflexivity]. cbn [andb] in X. apply Bool.negb_false_iff, beqb_eq in X. exact X.
Qed.
Lemma five_at_most : forall n cn sv s w h ok, serve n cn sv s = (w, h, ok) -> (List.length h <= n)%nat.
Proof.
  induction n as [|n IH]; intros cn sv s w h ok; cbn [serve]; [intro E; injection E as _ <- _; reflexivity|].
  destruct (process_turn cn sv (Nat.eqb n 0) s) as [| |w1 h1 again s1]; [intro E; injection E as _ <- _; cbn; lia|intro E; injection E as _ <- _; cbn; lia|].
  destruct again.
  - destruct (serve n cn sv s1) as [[w2 h2] ok2] eqn:S2. apply IH in S2. intro E. injection E as _ <- _. rewrite app_length. destruct h1; cbn [List.length]; lia.
  - intro E. injection E as _ <- _. destruct h1; cbn [List.length]; lia.
Qed.
