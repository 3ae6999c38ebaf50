(** Proofs: the length of a request for every text of digits. *)
From Coq Require Import ZifyBool ZifyNat ZifyN Sorted.
From Verif Require Import Base PBase MSerialize MHttp SHttp PHttp MTls MWire SWire PWire PWire2 PWire3 PWire4 PWire5 PWire6 PWire7 SLength.
Open Scope N_scope.

Lemma number_decimal : forall t acc, Forall (fun c => 48 <= c <= 57) t -> number_value 10 acc t = fold_left (fun n c => 10 * n + (c - 48)) t acc.
Proof.
  induction t as [|c t IH]; intros acc F; [reflexivity|]. inversion F as [|? ? Hc Ft]; subst. cbn [number_value fold_left]. rewrite digit_value_digit by exact Hc. rewrite IH by exact Ft. f_equal. lia.
Qed.
Lemma strtoul_decimal : forall t, digits_text t -> strtoul 10 t = (N.min ULONG_MAX (decimal t), true).
Proof.
  intros [|c r] [N0 F]; [congruence|]. pose proof (number_decimal (c :: r) 0 F) as V. inversion F as [|? ? D Fr]; subst. unfold strtoul. cbn [skip_white]. replace (white c) with false by (unfold white; lia).
  cbn iota. replace (c =? 45) with false by lia. replace (c =? 43) with false by lia. cbn iota.
  assert (S : (match r with x :: r0 => if (10 =? 16) && (c =? 48) && ((x =? 120) || (x =? 88)) && starts_number 16 r0 then r0 else c :: r | [] => c :: r end) = c :: r) by (destruct r; reflexivity).
  rewrite S. clear S. cbn [starts_number]. rewrite digit_value_digit by exact D. cbv zeta. rewrite V. fold (decimal (c :: r)).
  destruct (N.ltb_spec ULONG_MAX (decimal (c :: r))); [rewrite N.min_l by lia|rewrite N.min_r by lia]; reflexivity.
Qed.
Lemma digits_upto : forall t, digits_text t -> upto_nul t = t.
Proof. intros t [_ F]. induction F as [|c t Hc F IH]; [reflexivity|]. cbn [upto_nul]. replace (c =? 0) with false by lia. rewrite IH. reflexivity. Qed.

Lemma content_length hs s body hs' s' t r : values_ci (s2b "Transfer-Encoding") hs = [] -> read_content hs s = (Content body hs', s') -> blen (st_data s) < ULONG_MAX ->
  values_ci (s2b "Content-Length") hs = t :: r -> digits_text t -> blen body = decimal t.
Proof.
  intros T. unfold read_content. rewrite !header_value_ci, T. destruct (_ || _ || _); [discriminate|].
  change (same_ignoring_case [] (s2b "chunked")) with false. cbn iota. rewrite mm_has_ci. intros E L V D. revert E. rewrite V. cbn [negb]. rewrite digits_upto, strtoul_decimal by exact D. cbn [fst].
  destruct (with_length_spec (N.min ULONG_MAX (decimal t)) [] s _ _ (holds_self s)) as (s1 & W & [H1 H2]). rewrite W. cbn [app].
  destruct (N.leb_spec (N.min ULONG_MAX (decimal t)) (blen (st_data s))) as [LE|]; [|discriminate]. intro E. injection E as <- <- <-. unfold blen in *. rewrite firstn_length. lia.
Qed.
Lemma content_coding hs1 s2 body hs2 s3 : read_content hs1 s2 = (Content body hs2, s3) -> values_ci (s2b "Transfer-Encoding") hs2 = [] -> values_ci (s2b "Transfer-Encoding") hs1 = [].
Proof.
  intros RC T.
  destruct (values_ci (s2b "Transfer-Encoding") hs1) as [|v vs] eqn:V; [reflexivity|]. exfalso. revert RC. unfold read_content. destruct (_ || _ || _); [discriminate|].
      rewrite (header_value_ci (s2b "Transfer-Encoding")), V. destruct (same_ignoring_case _ _) eqn:CH.
      - destruct (chunked hs1 s2) as [[[okc bc] hc] sc] eqn:CK. destruct okc; [|discriminate]. intro E. injection E as _ -> _.
        assert (K : forall fuel h line0 s0 ok0 h0 s9, trailers fuel h line0 s0 = (ok0, h0, s9) -> incl (values_ci (s2b "Transfer-Encoding") h) (values_ci (s2b "Transfer-Encoding") h0)).
        { assert (K1 : forall l h, incl (values_ci (s2b "Transfer-Encoding") h) (values_ci (s2b "Transfer-Encoding") (add_parsed l h))).
          { intros l h x I. unfold add_parsed. destruct (parse_header l) as [[k y]|]; [|exact I]. unfold values_ci in *. apply in_map_iff in I as (e & <- & I).
            apply in_map. apply filter_In in I as [I1 I2]. apply filter_In. split; [|exact I2]. apply emplace_in. right. exact I1. }
          induction fuel as [|fuel IH]; intros h l0 s0 ok0 h0 s9; cbn [trailers]; (destruct (beqb (upto_nul l0) CRLF); [intro E; injection E as _ <- _; apply incl_refl|]);
            (destruct (MAX_LENGTH <? blen l0); [intro E; injection E as _ <- _; apply incl_refl|]).
          - intro E; injection E as _ <- _; apply incl_refl.
          - cbv zeta. destruct (getline s0) as [[l|] s5]; [intro E; apply IH in E; eapply incl_tran; [apply K1|exact E]|intro E; injection E as _ <- _; apply K1]. }
        assert (K2 : forall fuel h acc s0 ok0 b0 h0 s9, chunks fuel h acc s0 = (ok0, b0, h0, s9) -> incl (values_ci (s2b "Transfer-Encoding") h) (values_ci (s2b "Transfer-Encoding") h0)).
        { induction fuel as [|fuel IH]; intros h acc s0 ok0 b0 h0 s9; cbn [chunks]; [intro E; injection E as _ _ <- _; apply incl_refl|].
          destruct (getline s0) as [[l|] s5]; [|intro E; injection E as _ _ <- _; apply incl_refl]. destruct (strtoul 16 (upto_nul l)) as [len number].
          destruct (negb number || (len =? ULONG_MAX)); [intro E; injection E as _ _ <- _; apply incl_refl|]. destruct (len =? 0).
          - destruct (getline s5) as [[l2|] s6]; [|intro E; injection E as _ _ <- _; apply incl_refl]. destruct (trailers (List.length (st_data s6)) h l2 s6) as [[o t] s7] eqn:TR.
            intro E. injection E as _ _ <- _. eapply K. exact TR.
          - destruct (with_length len acc s5) as [[o a] s6]. destruct (negb o); [intro E; injection E as _ _ <- _; apply incl_refl|].
            destruct (getline s6) as [[l2|] s7]; [|intro E; injection E as _ _ <- _; apply incl_refl]. destruct (beqb (upto_nul l2) CRLF); [apply IH|intro E; injection E as _ _ <- _; apply incl_refl]. }
        unfold chunked in CK. apply K2 in CK. rewrite V, T in CK. exact (CK v (or_introl eq_refl)).
      - destruct (negb (mm_has (s2b "Content-Length") hs1)).
        + destruct (without_length s2) as [bb ss]. intro E. injection E as _ <- _. rewrite V in T. discriminate T.
        + destruct (with_length _ [] s2) as [[oo bb] ss]. destruct oo; [|discriminate]. intro E. injection E as _ <- _. rewrite V in T. discriminate T.
Qed.

Theorem request_length cn sv close s w req again s' t r : process_turn cn sv close s = Turn w (Some req) again s' -> values_ci (s2b "Transfer-Encoding") (rq_headers req) = [] ->
  rq_method req = s2b "POST" -> values_ci (s2b "Content-Length") (rq_headers req) = t :: r -> digits_text t -> blen (st_data s) < ULONG_MAX -> blen (rq_body req) = decimal t.
Proof.
  unfold process_turn. destruct (getline s) as [[line|] s1] eqn:G; [|discriminate]. apply getline_head in G as [G _].
  destruct (MAX_LENGTH <? blen line); [destruct (read_headers s1) as [[a b] s2]; discriminate|].
  remember (parse_request_line (upto_nul line)) as rl. destruct (negb (rl_ok rl)); [discriminate|].
  destruct (read_headers s1) as [[ok hs] s2] eqn:H. destruct ok; cbn [negb]; [|discriminate]. apply read_headers_head in H as (u & H & _).
  remember (add_addresses cn hs) as hs1. destruct (mm_has (s2b "Range") hs1); [discriminate|]. destruct (expects_content (rl_method rl) && _); [discriminate|].
  unfold server_content. destruct (negb (expects_content (rl_method rl)) || _) eqn:X.
  - destruct (routed_response sv _) as [routed rr]. intro E. injection E as _ <- _ <-. cbn [rq_body rq_headers rq_method]. intros T M. rewrite M in X. vm_compute in X. discriminate X.
  - destruct (read_content hs1 s2) as [[body hs2|z hs2] s3] eqn:RC; [|discriminate]. destruct (has_prefix (s2b "application/x-www-form-urlencoded") _ && _); [discriminate|].
    destruct (routed_response sv _) as [routed rr]. intro E. injection E as _ <- _ <-. cbn [rq_body rq_headers rq_method]. intros T _ V D L.
    pose proof (content_coding _ _ _ _ _ RC T) as T1. destruct (content_bytes hs1 s2 body hs2 s3 T1 RC) as (E1 & _). subst hs2.
    apply (content_length hs1 s2 body hs1 s3 t r T1 RC); try assumption. rewrite G, H in L. rewrite !blen_app in L. lia.
Qed.
