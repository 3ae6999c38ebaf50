(** An answer arrives at the client as the handler gave it. *)
From Coq Require Import ZifyBool ZifyNat ZifyN Sorted.
From Verif Require Import Base PBase MSerialize MHttp SHttp PHttp MTls MWire SWire PWire PWire2 PWire3 PWire4.
Open Scope N_scope.

(** ** The status line *)

Definition status_line (st : Z) : bytes := s2b "HTTP/1.1 " ++ to_text st ++ [32] ++ status_message st.
Definition three (st : N) : bool := beqb (dec_digits st) [48 + st / 100; 48 + st / 10 mod 10; 48 + st mod 10] || (st <? 100).
Lemma three_text st : (100 <= st <= 999)%Z -> let n := Z.to_N st in to_text st = [48 + n / 100; 48 + n / 10 mod 10; 48 + n mod 10].
Proof.
  intros H n. rewrite to_text_port by lia. assert (A : three n = true) by (apply (all_range 1000 three); [vm_compute; reflexivity|lia]).
  unfold three in A. apply Bool.orb_prop in A as [A|A]; [apply beqb_eq in A; exact A|lia].
Qed.
Lemma three_value st : (100 <= st <= 999)%Z -> let n := Z.to_N st in three_digits (48 + n / 100) (48 + n / 10 mod 10) (48 + n mod 10) = Some st.
Proof.
  intros H n. unfold three_digits. assert (L : 100 <= n <= 999) by lia.
  pose proof (N.div_mod n 100 ltac:(lia)) as A. pose proof (N.div_mod n 10 ltac:(lia)) as B. pose proof (N.div_mod (n / 10) 10 ltac:(lia)) as C.
  assert (D : n / 10 / 10 = n / 100) by (rewrite N.div_div by lia; reflexivity).
  pose proof (N.mod_lt n 10 ltac:(lia)). pose proof (N.mod_lt (n / 10) 10 ltac:(lia)).
  assert (E : n / 100 < 10) by (apply N.div_lt_upper_bound; lia).
  remember (n / 100) as h. remember (n / 10) as t. remember (n mod 10) as u. remember (t mod 10) as v. remember (t / 10) as w. remember (n mod 100) as x. clear Heqh Heqt Hequ Heqv Heqw Heqx.
  rewrite !digit_value_digit by (unfold digit; lia). f_equal. lia.
Qed.
Definition message_ok (m : bytes) : bool := forallb (fun c => negb (existsb (N.eqb c) [0; 10; 13])) m.
Lemma message_chars st : Forall (fun c => c <> 0 /\ c <> 10 /\ c <> 13) (status_message st).
Proof.
  assert (A : message_ok (status_message st) = true).
  { unfold status_message. destruct (find _ messages) as [e|] eqn:F; [|reflexivity]. apply find_some in F as [I _].
    assert (G : forallb (fun e => message_ok (snd e)) messages = true) by (vm_compute; reflexivity). rewrite forallb_forall in G. apply G. exact I. }
  unfold message_ok in A. rewrite forallb_forall in A. apply Forall_forall. intros c I. specialize (A c I). cbn [existsb] in A. lia.
Qed.
Lemma text_chars st : Forall (fun c => c <> 0 /\ c <> 10 /\ c <> 13) (to_text st).
Proof.
  unfold to_text. apply Forall_app. split; [destruct (st <? 0)%Z; repeat constructor; discriminate|].
  eapply Forall_impl; [|apply digits_digit]. unfold digit. intros a A. lia.
Qed.
Lemma status_line_chars st : Forall (fun c => c <> 0 /\ c <> 10 /\ c <> 13) (status_line st).
Proof.
  unfold status_line. rewrite !Forall_app. repeat split; try apply text_chars; try apply message_chars; repeat constructor; discriminate.
Qed.
Lemma no_line_end m : Forall (fun c => c <> 0 /\ c <> 10 /\ c <> 13) m -> existsb (fun x => (x =? 13) || (x =? 10)) m = false.
Proof. induction 1 as [|c l A F IH]; [reflexivity|]. cbn [existsb]. rewrite IH. lia. Qed.
Lemma match_line st : (100 <= st <= 999)%Z -> match_status (status_line st ++ CRLF) = Some st.
Proof.
  intro H. pose proof (three_value st H) as V. pose proof (three_text st H) as T. cbv zeta in V, T. unfold status_line, match_status. rewrite T.
  remember (48 + Z.to_N st / 100) as a. remember (48 + Z.to_N st / 10 mod 10) as b. remember (48 + Z.to_N st mod 10) as d. clear Heqa Heqb Heqd T.
  pose proof (no_line_end _ (message_chars st)) as M. remember (status_message st) as m. clear Heqm.
  replace ((s2b "HTTP/1.1 " ++ [a; b; d] ++ [32] ++ m) ++ CRLF) with (s2b "HTTP/1." ++ [49; 32; a; b; d; 32] ++ (m ++ CRLF)) by (rewrite <- !app_assoc; reflexivity).
  assert (P : has_prefix (s2b "HTTP/1.") (s2b "HTTP/1." ++ [49; 32; a; b; d; 32] ++ (m ++ CRLF)) = true) by (apply prefix_iff; eexists; reflexivity).
  rewrite P. cbn [negb]. change (skipn 7 (s2b "HTTP/1." ++ [49; 32; a; b; d; 32] ++ (m ++ CRLF))) with (49 :: 32 :: a :: b :: d :: 32 :: (m ++ CRLF)). cbn iota.
  change ((49 =? 48) || (49 =? 49)) with true. change (32 =? 32) with true. cbn [andb]. rewrite V.
  change (beqb (32 :: m ++ CRLF) CRLF) with false. cbn iota. rewrite crlf_app, crlf_cut. rewrite M. reflexivity.
Qed.
Lemma digits_four_more n : 1000 <= n -> exists a b c e r, dec_digits n = a :: b :: c :: e :: r /\ digit e.
Proof.
  intro H. pose proof (digits_digit n) as F. pose proof (number_digits n) as V.
  destruct (dec_digits n) as [|a [|b [|c [|e r]]]] eqn:E.
  - cbn [number_value] in V. lia.
  - inversion F as [|x y A B]. cbn [number_value] in V. rewrite digit_value_digit in V by exact A. unfold digit in A. lia.
  - apply Forall_cons_iff in F as [A F]. apply Forall_cons_iff in F as [B F]. cbn [number_value] in V. rewrite !digit_value_digit in V by assumption. unfold digit in A, B. lia.
  - apply Forall_cons_iff in F as [A F]. apply Forall_cons_iff in F as [B F]. apply Forall_cons_iff in F as [C F]. cbn [number_value] in V. rewrite !digit_value_digit in V by assumption. unfold digit in A, B, C. lia.
  - exists a, b, c, e, r. split; [reflexivity|]. do 3 apply Forall_cons_iff in F as [_ F]. inversion F. assumption.
Qed.
Definition few (st : N) : bool := (List.length (dec_digits st) <? 3)%nat || (100 <=? st).
Lemma short_text n : n < 100 -> exists a, dec_digits n = [a] \/ exists b, dec_digits n = [a; b].
Proof.
  intro H. assert (A : few n = true) by (apply (all_range 100 few); [vm_compute; reflexivity|lia]). unfold few in A. destruct (digits_cons n) as (c & r & E & _).
  exists c. rewrite E in *. destruct r as [|b [|x r]]; [left; reflexivity|right; exists b; reflexivity|]. exfalso. cbn [List.length] in A. destruct (Nat.ltb_spec (S (S (S (List.length r)))) 3); [lia|]. cbn [orb] in A. lia.
Qed.
Lemma unmatched_line st : ~ (100 <= st <= 999)%Z -> match_status (status_line st ++ CRLF) = None.
Proof.
  intro H. unfold match_status, status_line. replace ((s2b "HTTP/1.1 " ++ to_text st ++ [32] ++ status_message st) ++ CRLF) with (s2b "HTTP/1." ++ 49 :: 32 :: (to_text st ++ 32 :: (status_message st ++ CRLF))) by (rewrite <- !app_assoc; reflexivity).
  assert (P : forall x, has_prefix (s2b "HTTP/1.") (s2b "HTTP/1." ++ x) = true) by (intro x; apply prefix_iff; eexists; reflexivity). rewrite P. cbn [negb].
  change (skipn 7 (s2b "HTTP/1." ++ 49 :: 32 :: (to_text st ++ 32 :: (status_message st ++ CRLF)))) with (49 :: 32 :: (to_text st ++ 32 :: (status_message st ++ CRLF))). cbn iota.
  change ((49 =? 48) || (49 =? 49)) with true. change (32 =? 32) with true. cbn [andb].
  remember (status_message st ++ CRLF) as m eqn:EM. assert (D32 : digit_value 10 32 = None) by reflexivity.
  destruct (Z.ltb_spec st 0) as [NEG|POS].
  - unfold to_text. replace (st <? 0)%Z with true by lia. destruct (digits_cons (Z.to_N (Z.abs st))) as (c & r & -> & _). cbn [app].
    destruct r as [|b r]; cbn [app].
    + destruct m as [|m1 m]; [reflexivity|]. unfold three_digits. change (digit_value 10 45) with (@None N). reflexivity.
    + destruct (r ++ 32 :: m) as [|x y]; [reflexivity|]. unfold three_digits. change (digit_value 10 45) with (@None N). reflexivity.
  - rewrite to_text_port by lia. destruct (Z.ltb_spec st 100) as [SM|BIG].
    + destruct (short_text (Z.to_N st) ltac:(lia)) as (a & [-> |(b & ->)]); cbn [app].
      * destruct m as [|m1 m]; [reflexivity|]. unfold three_digits. rewrite D32. destruct (digit_value 10 a); reflexivity.
      * unfold three_digits. rewrite D32. destruct (digit_value 10 a); [destruct (digit_value 10 b)|]; reflexivity.
    + destruct (digits_four_more (Z.to_N st) ltac:(lia)) as (a & b & c & e & r & -> & DE). cbn [app].
      destruct (three_digits a b c); [|reflexivity]. unfold digit in DE. unfold CRLF at 1. cbn [beqb]. replace (e =? 13) with false by lia. cbn [andb]. replace (e =? 32) with false by lia. reflexivity.
Qed.

(** ** What the server adds *)

Lemma emplace_forall (P : bytes * bytes -> Prop) k v l : P (k, v) -> Forall P l -> Forall P (mm_emplace k v l).
Proof. intros A F. apply Forall_forall. intros x I. apply emplace_in in I as [->|I]; [exact A|]. rewrite Forall_forall in F. auto. Qed.
Lemma set_header_forall (P : bytes * bytes -> Prop) k v r : P (k, v) -> Forall P (rs_headers r) -> Forall P (rs_headers (set_header k v r)).
Proof. intros A F. unfold set_header. destruct (_ || _); [exact F|]. cbn [rs_headers]. apply emplace_forall; assumption. Qed.
Lemma not_framing_name k : forallb (fun f => negb (beqb (map tolower f) (map tolower k))) framing = true -> Forall (fun f => ~ same_name f k) framing.
Proof. intro H. rewrite forallb_forall in H. apply Forall_forall. intros f I S. specialize (H f I). unfold same_name in S. rewrite S, beqb_refl in H. discriminate. Qed.
Lemma no_framing_values f hs : no_framing hs -> In f framing -> values_ci f hs = [].
Proof.
  intros N I. unfold values_ci. induction N as [|e hs A F IH]; [reflexivity|]. cbn [filter]. rewrite Forall_forall in A. specialize (A f I).
  destruct (beqb (map tolower f) (map tolower (fst e))) eqn:E; [apply beqb_eq in E; contradiction|exact IH].
Qed.

(** A response before the server adds to it. *)
Definition bare (r : response) : Prop :=
  StronglySorted le_name (rs_headers r) /\ Forall usual_line (rs_headers r) /\ no_framing (rs_headers r).
Lemma bare_add k v r : bare r -> usual_line (k, v) -> forallb (fun f => negb (beqb (map tolower f) (map tolower k))) framing = true -> bare (set_header k v r).
Proof.
  intros (S & U & N) A B. split; [apply set_header_sorted; exact S|]. split; [apply set_header_forall; assumption|].
  apply (set_header_forall (fun e => Forall (fun f => ~ same_name f (fst e)) framing)); [apply not_framing_name, B|exact N].
Qed.
Lemma usual_const k v : plain_nameb k = true -> plain_valueb v = true -> (blen k + blen v + 4 <=? 8192) = true -> usual_line (k, v).
Proof. intros A B C. left. apply plain_named; [exact A|apply plain_valueb_ok, B|lia]. Qed.


(** The response as it is written. *)
Definition added (close : bool) (method : bytes) (hs : headers) (routed : bool) (r : response) : response :=
  let failing := (400 <=? rs_status r)%Z in
  let r := if failing then error_handler r else r in
  let r := if (routed || failing) && negb (beqb (rs_body r) []) then set_header (s2b "Content-Length") (dec_digits (blen (rs_body r))) r else r in
  let r := if close || beqb (header_value (s2b "Connection") hs) (s2b "close") then set_header (s2b "Connection") (s2b "close") r
           else set_header (s2b "Keep-Alive") (s2b "timeout=5, max=5") r in
  let r := if negb (mm_has (s2b "Content-Type") (rs_headers r)) && negb (beqb (rs_body r) []) then set_header (s2b "Content-Type") (s2b "text/plain") r else r in
  let r := if negb (mm_has (s2b "Content-Length") (rs_headers r)) && beqb (rs_body r) [] then set_header (s2b "Content-Length") (s2b "0") r else r in
  if negb (mm_has (s2b "Accept-Ranges") (rs_headers r)) && beqb method (s2b "HEAD") then set_header (s2b "Accept-Ranges") (s2b "bytes") r else r.
Lemma reply_added close method hs routed r : server_reply close method hs routed r =
  status_line (rs_status (added close method hs routed r)) ++ CRLF ++ write_headers (rs_headers (added close method hs routed r)) ++ (if beqb method (s2b "HEAD") then [] else rs_body (added close method hs routed r)).
Proof. unfold server_reply, status_line. rewrite <- !app_assoc. reflexivity. Qed.

Lemma usual_length n : n <= SIZE_MAX -> usual_line (s2b "Content-Length", dec_digits n).
Proof.
  intro H. left. apply plain_named; [reflexivity|apply digits_plain|].
  assert (D : blen (dec_digits n) <= 64) by (apply digits_length; [change (2 ^ 64) with 18446744073709551616; unfold SIZE_MAX in H; lia|reflexivity]).
  change (blen (s2b "Content-Length")) with 14. lia.
Qed.

(** What is known while headers are added: no coding; the length once it is there. *)
Definition sized (lens : list bytes) (r : response) : Prop :=
  StronglySorted le_name (rs_headers r) /\ Forall usual_line (rs_headers r) /\
  values_ci (s2b "Content-Encoding") (rs_headers r) = [] /\ values_ci (s2b "Transfer-Encoding") (rs_headers r) = [] /\ values_ci (s2b "Content-Length") (rs_headers r) = lens.
Lemma bare_sized r : bare r -> sized [] r.
Proof. intros (S & U & N). split; [exact S|]. split; [exact U|]. repeat split; apply no_framing_values; try exact N; cbn [framing map In]; auto. Qed.
Lemma sized_length lens n r : sized lens r -> n <= SIZE_MAX -> sized (lens ++ [dec_digits n]) (set_header (s2b "Content-Length") (dec_digits n) r).
Proof.
  intros (S & U & A & B & C) H. pose proof (plain_sendable _ (digits_plain n)) as SD. assert (SK : sendable (s2b "Content-Length")) by (apply crlf_sendable; reflexivity).
  split; [apply set_header_sorted; exact S|]. split; [apply set_header_forall; [apply usual_length, H|exact U]|].
  rewrite !set_header_values by assumption. rewrite A, B, C. repeat split.
Qed.
Lemma sized_other lens k v r : sized lens r -> usual_line (k, v) -> sendable k -> sendable v -> forallb (fun f => negb (beqb (map tolower f) (map tolower k))) framing = true -> sized lens (set_header k v r).
Proof.
  intros (S & U & A & B & C) L SK SV N. split; [apply set_header_sorted; exact S|]. split; [apply set_header_forall; assumption|].
  rewrite !set_header_values by assumption. cbn [framing map forallb] in N. apply andb_prop in N as [N1 N]. apply andb_prop in N as [N2 N]. apply andb_prop in N as [N3 _].
  apply Bool.negb_true_iff in N1, N2, N3. rewrite N1, N2, N3, A, B, C, !app_nil_r. repeat split.
Qed.
Lemma sized_const lens k v r : sized lens r -> plain_nameb k = true -> plain_valueb v = true -> (blen k + blen v + 4 <=? 8192) = true ->
  forallb (fun f => negb (beqb (map tolower f) (map tolower k))) framing = true -> sized lens (set_header k v r).
Proof.
  intros S A B C D. apply sized_other; [exact S|apply usual_const; assumption| | |exact D].
  - apply plain_nameb_ok, name_sendable in A. apply A.
  - apply plain_sendable, plain_valueb_ok, B.
Qed.
Lemma error_handler_body r : rs_body (error_handler r) = match rs_body r with [] => s2b "Router error" | b => b end.
Proof. unfold error_handler. rewrite set_header_body. destruct (rs_body r) as [|b l] eqn:E; cbn [beqb rs_body]; [reflexivity|exact E]. Qed.
Lemma error_handler_status r : rs_status (error_handler r) = rs_status r.
Proof. unfold error_handler. rewrite set_header_status. destruct (beqb (rs_body r) []); reflexivity. Qed.
Lemma sized_body lens r b : sized lens r -> sized lens (mk_response (rs_status r) (rs_headers r) b).
Proof. intro S. exact S. Qed.
Lemma sized_error lens r : sized lens r -> sized lens (error_handler r).
Proof. intro S. unfold error_handler. apply sized_const; try reflexivity. destruct (beqb (rs_body r) []); exact S. Qed.

Lemma added_spec close hs method routed r : bare r -> routed = true \/ (400 <= rs_status r)%Z -> blen (rs_body r) <= SIZE_MAX ->
  let f := added close method hs routed r in
  rs_status f = rs_status r /\ rs_body f = sent_text (rs_status r) (rs_body r) /\ sized [dec_digits (blen (rs_body f))] f.
Proof.
  intros B R L f. unfold f, added. cbv zeta. clear f.
  remember (if (400 <=? rs_status r)%Z then error_handler r else r) as r1 eqn:E1.
  assert (S1 : sized [] r1) by (subst r1; destruct (400 <=? rs_status r)%Z; [apply sized_error|]; apply bare_sized, B).
  assert (ST1 : rs_status r1 = rs_status r) by (subst r1; destruct (400 <=? rs_status r)%Z; [apply error_handler_status|reflexivity]).
  assert (BD1 : rs_body r1 = sent_text (rs_status r) (rs_body r)).
  { subst r1. unfold sent_text. destruct (400 <=? rs_status r)%Z; [rewrite error_handler_body|]; destruct (rs_body r); reflexivity. }
  assert (L1 : blen (rs_body r1) <= SIZE_MAX). { rewrite BD1. unfold sent_text. destruct (rs_body r); [destruct (400 <=? rs_status r)%Z; vm_compute; discriminate|exact L]. }
  assert (RF : routed || (400 <=? rs_status r)%Z = true) by (destruct R as [->|R]; [reflexivity|]; replace (400 <=? rs_status r)%Z with true by lia; apply Bool.orb_true_r).
  rewrite RF. cbn [andb]. clear E1 RF R B L.
  remember (if negb (beqb (rs_body r1) []) then set_header (s2b "Content-Length") (dec_digits (blen (rs_body r1))) r1 else r1) as r2 eqn:E2.
  assert (S2 : sized (if beqb (rs_body r1) [] then [] else [dec_digits (blen (rs_body r1))]) r2).
  { subst r2. destruct (beqb (rs_body r1) []); cbn [negb]; [exact S1|]. apply (sized_length [] _ r1 S1 L1). }
  assert (ST2 : rs_status r2 = rs_status r1) by (subst r2; destruct (negb _); [apply set_header_status|reflexivity]).
  assert (BD2 : rs_body r2 = rs_body r1) by (subst r2; destruct (negb _); [apply set_header_body|reflexivity]).
  clear E2.
  match goal with |- context [if ?b then set_header (s2b "Connection") ?x r2 else ?y] => remember (if b then set_header (s2b "Connection") x r2 else y) as r3 eqn:E3 end.
  assert (S3 : sized (if beqb (rs_body r1) [] then [] else [dec_digits (blen (rs_body r1))]) r3) by (subst r3; destruct (close || _); (apply sized_const; [exact S2|reflexivity..])).
  assert (ST3 : rs_status r3 = rs_status r2) by (subst r3; destruct (close || _); apply set_header_status).
  assert (BD3 : rs_body r3 = rs_body r2) by (subst r3; destruct (close || _); apply set_header_body).
  clear E3 S2.
  match goal with |- context [if ?b then set_header (s2b "Content-Type") ?x r3 else ?y] => remember (if b then set_header (s2b "Content-Type") x r3 else y) as r4 eqn:E4 end.
  assert (S4 : sized (if beqb (rs_body r1) [] then [] else [dec_digits (blen (rs_body r1))]) r4) by (subst r4; destruct (negb _ && _); [apply sized_const; [exact S3|reflexivity..]|exact S3]).
  assert (ST4 : rs_status r4 = rs_status r3) by (subst r4; destruct (negb _ && _); [apply set_header_status|reflexivity]).
  assert (BD4 : rs_body r4 = rs_body r3) by (subst r4; destruct (negb _ && _); [apply set_header_body|reflexivity]).
  clear E4 S3.
  match goal with |- context [if ?b then set_header (s2b "Content-Length") ?x r4 else ?y] => remember (if b then set_header (s2b "Content-Length") x r4 else y) as r5 eqn:E5 end.
  assert (BDX : rs_body r4 = rs_body r1) by congruence.
  assert (S5 : sized [dec_digits (blen (rs_body r1))] r5).
  { subst r5. rewrite BDX. pose proof S4 as (_ & _ & _ & _ & V). rewrite mm_has_ci, V. destruct (beqb (rs_body r1) []) eqn:Q; cbn [negb andb]; [|exact S4].
    apply beqb_eq in Q. rewrite Q. change (dec_digits (blen [])) with (dec_digits 0). change (s2b "0") with (dec_digits 0). apply (sized_length [] 0 r4 S4). vm_compute. discriminate. }
  assert (ST5 : rs_status r5 = rs_status r4) by (subst r5; destruct (negb _ && _); [apply set_header_status|reflexivity]).
  assert (BD5 : rs_body r5 = rs_body r4) by (subst r5; destruct (negb _ && _); [apply set_header_body|reflexivity]).
  clear E5 S4.
  match goal with |- context [if ?b then set_header (s2b "Accept-Ranges") ?x r5 else ?y] => remember (if b then set_header (s2b "Accept-Ranges") x r5 else y) as r6 eqn:E6 end.
  assert (S6 : sized [dec_digits (blen (rs_body r1))] r6) by (subst r6; destruct (negb _ && _); [apply sized_const; [exact S5|reflexivity..]|exact S5]).
  assert (ST6 : rs_status r6 = rs_status r5) by (subst r6; destruct (negb _ && _); [apply set_header_status|reflexivity]).
  assert (BD6 : rs_body r6 = rs_body r5) by (subst r6; destruct (negb _ && _); [apply set_header_body|reflexivity]).
  split; [congruence|]. split; [congruence|]. rewrite BD6, BD5, BDX. exact S6.
Qed.

(** ** What the client reads *)

Lemma response_read s c st hs body more : holds (status_line st ++ CRLF ++ write_headers hs ++ body ++ more) c s -> (101 <= st <= 999)%Z ->
  Forall usual_line hs -> values_ci (s2b "Content-Encoding") hs = [] -> values_ci (s2b "Transfer-Encoding") hs = [] ->
  values_ci (s2b "Content-Length") hs = [dec_digits (blen body)] -> blen body <= SIZE_MAX ->
  read_response s = Some (st, arriving (filter tells hs), if (st =? 204)%Z then [] else body).
Proof.
  intros H ST U CE TE CL L. unfold read_response, read_response_line.
  replace (status_line st ++ CRLF ++ write_headers hs ++ body ++ more) with ((status_line st ++ [13]) ++ 10 :: (write_headers hs ++ (body ++ more))) in H by (unfold CRLF; rewrite <- !app_assoc; reflexivity).
  destruct (getline_line s _ _ c H) as (s1 & G & H1).
  { apply Forall_app. split; [|repeat constructor; discriminate]. eapply Forall_impl; [|apply status_line_chars]. cbn. intuition. }
  rewrite G. replace ((status_line st ++ [13]) ++ [10]) with (status_line st ++ CRLF) by (rewrite <- app_assoc; reflexivity).
  rewrite upto_nul_plain by (apply Forall_app; split; [eapply Forall_impl; [|apply status_line_chars]; cbn; intuition|repeat constructor; discriminate]).
  rewrite match_line by lia. cbn [after_continue]. replace (st =? 100)%Z with false by lia.
  destruct (usual_headers s1 hs (body ++ more) c U H1) as (s2 & G2 & H2). rewrite G2. cbn [negb].
  destruct (st =? 204)%Z; [reflexivity|].
  destruct (content_of_length (arriving (filter tells hs)) s2 (body ++ more) c (blen body) [] H2) as (s3 & G3 & _).
  { rewrite arriving_values, tells_values, CE. reflexivity. } { rewrite arriving_values, tells_values, TE. reflexivity. }
  { rewrite arriving_values, tells_values, CL. cbn [filter]. destruct (digits_cons (blen body)) as (a & b & -> & _). reflexivity. } { exact L. }
  rewrite G3. replace (blen body <=? blen (body ++ more)) with true by (rewrite blen_app; lia). rewrite firstn_app_len. reflexivity.
Qed.

Lemma reply_received close hs routed r s c more : bare r -> routed = true \/ (400 <= rs_status r)%Z -> blen (rs_body r) <= SIZE_MAX -> (101 <= rs_status r <= 999)%Z ->
  holds (server_reply close (s2b "POST") hs routed r ++ more) c s ->
  client_reply s = Replied (rs_status r) (received (rs_status r) (sent_text (rs_status r) (rs_body r))).
Proof.
  intros B R L ST H. destruct (added_spec close hs (s2b "POST") routed r B R L) as (A1 & A2 & A3). rewrite reply_added in H.
  remember (added close (s2b "POST") hs routed r) as f. change (beqb (s2b "POST") (s2b "HEAD")) with false in H. cbn iota in H.
  rewrite A1 in H. rewrite <- !app_assoc in H. destruct A3 as (_ & U & CE & TE & CL).
  assert (LF : blen (rs_body f) <= SIZE_MAX). { rewrite A2. unfold sent_text. destruct (rs_body r); [destruct (400 <=? rs_status r)%Z; vm_compute; discriminate|exact L]. }
  pose proof (response_read s c _ _ _ _ H ST U CE TE CL LF) as E. unfold client_reply. rewrite E.
  replace (beqb (st_data s) []) with false by (destruct H as [-> _]; reflexivity). cbn [andb]. rewrite A2. reflexivity.
Qed.
Lemma reply_unread close hs routed r s c more : ~ (100 <= rs_status r <= 999)%Z -> holds (server_reply close (s2b "POST") hs routed r ++ more) c s -> client_reply s = Failed.
Proof.
  intros ST H. assert (A1 : rs_status (added close (s2b "POST") hs routed r) = rs_status r).
  { unfold added. cbv zeta. repeat match goal with |- context [if ?b then set_header _ _ _ else _] => destruct b; rewrite ?set_header_status end;
    (destruct (400 <=? rs_status r)%Z; [apply error_handler_status|reflexivity]). }
  rewrite reply_added, A1 in H. change (beqb (s2b "POST") (s2b "HEAD")) with false in H. cbn iota in H.
  remember (write_headers _ ++ _) as rest in H. clear Heqrest.
  replace ((status_line (rs_status r) ++ CRLF ++ rest) ++ more) with ((status_line (rs_status r) ++ [13]) ++ 10 :: (rest ++ more)) in H by (unfold CRLF; rewrite <- !app_assoc; reflexivity).
  unfold client_reply. replace (beqb (st_data s) []) with false by (destruct H as [-> _]; reflexivity). cbn [andb]. unfold read_response, read_response_line.
  destruct (getline_line s _ _ c H) as (s1 & G & H1).
  { apply Forall_app. split; [|repeat constructor; discriminate]. eapply Forall_impl; [|apply status_line_chars]. cbn. intuition. }
  rewrite G. replace ((status_line (rs_status r) ++ [13]) ++ [10]) with (status_line (rs_status r) ++ CRLF) by (rewrite <- app_assoc; reflexivity).
  rewrite upto_nul_plain by (apply Forall_app; split; [eapply Forall_impl; [|apply status_line_chars]; cbn; intuition|repeat constructor; discriminate]).
  rewrite unmatched_line by exact ST. reflexivity.
Qed.

(** ** What the handlers give *)

Lemma bare_none st b : bare (mk_response st [] b).
Proof. repeat split; constructor. Qed.
Lemma bare_status z r : bare r -> bare (set_status z r).
Proof. intro B. exact B. Qed.
Lemma usual_sendable e : usual_line e -> sendable (fst e) /\ sendable (snd e).
Proof. intro U. apply usual_short in U. apply U. Qed.
Lemma bare_fold : forall hdr r, bare r -> Forall usual_line hdr -> no_framing hdr -> bare (fold_left (fun r e => set_header (fst e) (snd e) r) hdr r).
Proof.
  induction hdr as [|e hdr IH]; intros r B U N; cbn [fold_left]; [exact B|]. apply Forall_cons_iff in U as [U1 U]. apply Forall_cons_iff in N as [N1 N].
  apply IH; [|exact U|exact N]. apply bare_add; [exact B|destruct e; exact U1|]. rewrite forallb_forall. rewrite Forall_forall in N1. intros f I. specialize (N1 f I).
  destruct (beqb (map tolower f) (map tolower (fst e))) eqn:E; [|reflexivity]. apply beqb_eq in E. contradiction.
Qed.
Lemma fold_body : forall (hdr : list (bytes * bytes)) r, rs_body (fold_left (fun r e => set_header (fst e) (snd e) r) hdr r) = rs_body r.
Proof. induction hdr as [|e hdr IH]; intro r; cbn [fold_left]; [reflexivity|]. rewrite IH. apply set_header_body. Qed.
Lemma bare_content r s ct : bare r -> usual_line (s2b "Content-Type", ct) -> bare (set_content s ct r).
Proof.
  intros (S & U & N) L. unfold set_content. apply bare_add; [|exact L|reflexivity]. cbn [rs_headers]. unfold mm_erase. split; [|split]; cbn [rs_headers].
  - apply sorted_filter. exact S.
  - apply Forall_forall. intros x I. apply filter_In in I as [I _]. rewrite Forall_forall in U. auto.
  - apply Forall_forall. intros x I. apply filter_In in I as [I _]. unfold no_framing in N. rewrite Forall_forall in N. auto.
Qed.
Lemma map_at_in k m v : map_at k m = Some v -> In (k, v) m.
Proof.
  induction m as [|[a b] m IH]; cbn [map_at fst snd]; [discriminate|]. destruct (beqb k a) eqn:E; [|right; auto].
  apply beqb_eq in E. intro H. injection H as ->. left. congruence.
Qed.
Lemma quiet_type : usual_line (s2b "Content-Type", []).
Proof. right. split; [apply plain_nameb_ok; reflexivity|]. split; [reflexivity|vm_compute; discriminate]. Qed.
Lemma bare_set_response body hdr st r : bare r -> Forall usual_line hdr -> no_framing hdr -> bare (set_response body hdr st r).
Proof.
  intros B U N. unfold set_response. cbv zeta. apply bare_status, bare_content; [apply bare_fold; assumption|].
  destruct (map_at (s2b "Content-Type") hdr) as [c|] eqn:E; [|exact quiet_type]. apply map_at_in in E. rewrite Forall_forall in U. exact (U _ E).
Qed.
Lemma exception_bare w r : bare r -> bare (exception_handler w r).
Proof. intro B. unfold exception_handler. cbv zeta. apply bare_status, bare_content; [exact B|apply usual_const; reflexivity]. Qed.
Lemma upto_nul_length s : (List.length (upto_nul s) <= List.length s)%nat.
Proof. induction s as [|c s IH]; cbn [upto_nul List.length]; [lia|]. destruct (c =? 0); cbn [List.length]; lia. Qed.
Lemma exception_length w r : blen (rs_body (exception_handler w r)) <= SIZE_MAX.
Proof.
  unfold exception_handler. cbv zeta. cbn [set_status rs_body]. unfold set_content. rewrite set_header_body. cbn [rs_body]. destruct w as [w|]; [|vm_compute; discriminate].
  unfold blen. pose proof (firstn_le_length (N.to_nat 8191) (upto_nul w)) as A. unfold SIZE_MAX. lia.
Qed.
Lemma dispatch_cases req res l x : dispatch req res l = Some x -> exists f h, In (f, h) l /\ f (rq_path req) = true /\ x = run_handle h req res.
Proof.
  induction l as [|[f h] l IH]; cbn [dispatch]; [discriminate|]. destruct (f (rq_path req)) eqn:M.
  - intro H. injection H as <-. exists f, h. split; [left; reflexivity|]. split; [exact M|reflexivity].
  - intro H. destruct (IH H) as (f' & h' & I & E). exists f', h'. split; [right; exact I|exact E].
Qed.
Lemma routed_ok sv req : usual_server sv req -> rq_method req = s2b "POST" ->
  let (routed, r) := routed_response sv req in
  bare r /\ (routed = true \/ (400 <= rs_status r)%Z) /\ blen (rs_body r) <= SIZE_MAX.
Proof.
  intros U M. unfold routed_response. cbv zeta. remember (mk_response (-1) [] []) as res eqn:ER. assert (BR : bare res) by (subst; apply bare_none).
  assert (RT : routing sv req res = match dispatch req res (sv_post sv) with None => inl (false, res) | Some (inl r) => inl (true, r) | Some (inr w) => inr w end)
    by (unfold routing; rewrite M; reflexivity).
  rewrite RT. destruct (dispatch req res (sv_post sv)) as [x|] eqn:DX.
  - apply dispatch_cases in DX as (f & h & I & M' & E). unfold usual_server in U. rewrite Forall_forall in U. specialize (U _ I). cbn [fst snd] in U. specialize (U M').
    unfold run_handle in E. destruct (h (get_request_header req) (rq_body req)) as [st hdr body|w]; subst x.
    + cbn [usual_answer] in U. destruct U as (U1 & U2 & U3). pose proof (bare_set_response body hdr st res BR U1 U2) as B.
      assert (BB : blen (rs_body (set_response body hdr st res)) <= SIZE_MAX) by (unfold set_response; cbv zeta; cbn [set_status rs_body]; unfold set_content; rewrite set_header_body; exact U3).
      destruct (rs_status (set_response body hdr st res) =? -1)%Z; (split; [exact B|split; [left; reflexivity|exact BB]]).
    + assert (E1 : (rs_status (exception_handler w res) =? -1)%Z = false) by reflexivity. rewrite E1.
      split; [apply exception_bare, BR|]. split; [left; reflexivity|apply exception_length].
  - subst res. cbn [rs_status]. change (-1 =? -1)%Z with true. cbn iota. split; [apply bare_none|]. split; [right; cbn; lia|vm_compute; discriminate].
Qed.
Lemma routed_sent sv req : rq_method req = s2b "POST" ->
  let (routed, r) := routed_response sv req in
  rs_status (process_request sv req) = rs_status r /\ rs_body (process_request sv req) = sent_text (rs_status r) (rs_body r).
Proof.
  intro M. unfold routed_response, process_request. cbv zeta. destruct (match routing sv req (mk_response (-1) [] []) with inl x => x | inr w => (true, exception_handler w (mk_response (-1) [] [])) end) as [routed r].
  remember (if (rs_status r =? -1)%Z then set_status (if routed then 200 else 404) r else r) as q. unfold write_response. rewrite M. change (beqb (s2b "POST") (s2b "HEAD")) with false. cbv zeta. cbn iota.
  assert (G : forall q' : response, rs_status (if negb (mm_has (s2b "Content-Type") (rs_headers q')) && negb (beqb (rs_body q') []) then set_header (s2b "Content-Type") (s2b "text/plain") q' else q') = rs_status q' /\
     rs_body (if negb (mm_has (s2b "Content-Type") (rs_headers q')) && negb (beqb (rs_body q') []) then set_header (s2b "Content-Type") (s2b "text/plain") q' else q') = rs_body q').
  { intro q'. destruct (_ && _); [split; [apply set_header_status|apply set_header_body]|split; reflexivity]. }
  destruct (G (if (400 <=? rs_status q)%Z then error_handler q else q)) as [-> ->]. unfold sent_text.
  destruct (400 <=? rs_status q)%Z; [split; [apply error_handler_status|rewrite error_handler_body; destruct (rs_body q); reflexivity]|split; [reflexivity|destruct (rs_body q); reflexivity]].
Qed.
