(** Header lines written and read again. *)
From Coq Require Import ZifyBool ZifyNat ZifyN Sorted.
From Verif Require Import Base PBase MSerialize MHttp SHttp PHttp MTls MWire SWire PWire.
Open Scope N_scope.

(** ** The header block as a function of the bytes *)

Fixpoint block (fuel : nat) (hs : headers) (d : bytes) : bool * headers * bytes :=
  match fuel with
  | O => (false, hs, d)
  | S f =>
    match cut_line d with
    | None => (false, hs, [])
    | Some (l, r) =>
      if negb (end_with_crlf l) then block f hs r
      else if blen l =? 2 then (true, hs, r)
      else if MAX_LENGTH <? blen l then (false, hs, r)
      else block f (add_parsed (firstn (List.length l - 2) l) hs) r
    end
  end.

Lemma crlf_has_lf l : end_with_crlf l = true -> exists a, l = a ++ CRLF.
Proof.
  unfold end_with_crlf. intro H. apply beqb_eq in H. exists (firstn (List.length l - 2) l). rewrite <- H. symmetry. apply firstn_skipn.
Qed.
Lemma crlf_app a : end_with_crlf (a ++ CRLF) = true.
Proof.
  unfold end_with_crlf. rewrite app_length. cbn [List.length CRLF]. replace (List.length a + 2 - 2)%nat with (List.length a) by lia.
  rewrite skipn_app, skipn_all, Nat.sub_diag. apply beqb_refl.
Qed.
Lemma crlf_cut a : firstn (List.length (a ++ CRLF) - 2) (a ++ CRLF) = a.
Proof.
  rewrite app_length. cbn [List.length CRLF]. replace (List.length a + 2 - 2)%nat with (List.length a) by lia.
  rewrite firstn_app, firstn_all, Nat.sub_diag. cbn [firstn]. apply app_nil_r.
Qed.
Lemma no_lf_no_crlf l : Forall (fun c => c <> 10) l -> end_with_crlf l = false.
Proof.
  intro F. destruct (end_with_crlf l) eqn:E; [|reflexivity]. apply crlf_has_lf in E as (a & ->).
  apply Forall_app in F as [_ F]. apply Forall_cons_iff in F as [_ F]. apply Forall_cons_iff in F as [F _]. contradiction.
Qed.

Lemma headers_loop_spec : forall fuel hs s d c, holds d c s -> (List.length d < fuel)%nat ->
  exists s', read_headers_loop fuel hs s = (fst (fst (block fuel hs d)), snd (fst (block fuel hs d)), s') /\ holds (snd (block fuel hs d)) c s'.
Proof.
  induction fuel as [|fuel IH]; intros hs s d c H L; [lia|]. cbn [read_headers_loop block].
  pose proof (getline_spec s d c H) as G. destruct (cut_line d) as [[l r]|] eqn:E.
  - destruct G as (s1 & G & H1). rewrite G. apply cut_line_app in E as [_ E].
    destruct (end_with_crlf l); cbn [negb]; [|apply IH; [exact H1|lia]].
    destruct (blen l =? 2); [exists s1; split; [reflexivity|exact H1]|].
    destruct (MAX_LENGTH <? blen l); [exists s1; split; [reflexivity|exact H1]|].
    apply IH; [exact H1|lia].
  - destruct G as (s1 & G & H1). rewrite G. destruct (c && negb (beqb d [])) eqn:P; cbn [fst snd]; [|exists s1; split; [reflexivity|exact H1]].
    apply cut_line_none in E. rewrite (no_lf_no_crlf d E). cbn [negb].
    destruct d as [|b d]; [cbn [beqb negb] in P; rewrite Bool.andb_false_r in P; discriminate|].
    destruct fuel as [|fuel]; [cbn [List.length] in L; lia|]. cbn [read_headers_loop].
    pose proof (getline_spec s1 [] c H1) as G1. cbn [cut_line beqb negb] in G1. rewrite Bool.andb_false_r in G1.
    destruct G1 as (s2 & G1 & H2). rewrite G1. exists s2. split; [reflexivity|exact H2].
Qed.
Lemma read_headers_spec s d c : holds d c s ->
  exists s' ok hs r, read_headers s = (ok, hs, s') /\ block (S (List.length d)) [] d = (ok, hs, r) /\ holds r c s'.
Proof.
  intro H. destruct (headers_loop_spec (S (List.length d)) [] s d c H ltac:(lia)) as (s' & E & H').
  destruct (block (S (List.length d)) [] d) as [[ok hs] r] eqn:B. exists s', ok, hs, r. split; [|split; [reflexivity|exact H']].
  unfold read_headers. destruct H as [-> _]. exact E.
Qed.

(** A complete block is read the same whatever follows. *)
Lemma cut_line_local d l r x : cut_line d = Some (l, r) -> cut_line (l ++ x) = Some (l, x).
Proof. intro H. apply cut_line_ends in H as (a & -> & F). rewrite <- app_assoc. cbn [app]. apply cut_line_first. exact F. Qed.
Lemma block_local : forall fuel hs d hs' r, block fuel hs d = (true, hs', r) ->
  exists u, d = u ++ r /\ (2 <= List.length u)%nat /\ forall fuel' x, (List.length (u ++ x) < fuel')%nat -> block fuel' hs (u ++ x) = (true, hs', x).
Proof.
  induction fuel as [|fuel IH]; intros hs d hs' r; cbn [block]; [discriminate|].
  destruct (cut_line d) as [[l t]|] eqn:E; [|discriminate]. pose proof (cut_line_app d l t E) as [D _].
  destruct (end_with_crlf l) eqn:C; cbn [negb].
  - destruct (blen l =? 2) eqn:B2.
    + intro H. injection H as <- <-. exists l. split; [exact D|]. split; [unfold blen in B2; lia|]. intros fuel' x L. destruct fuel' as [|f]; [lia|]. cbn [block].
      rewrite (cut_line_local d l _ x E), C, B2. reflexivity.
    + destruct (MAX_LENGTH <? blen l) eqn:M; [discriminate|]. intro H. apply IH in H as (u & -> & L2 & G).
      exists (l ++ u). split; [rewrite D; apply app_assoc|]. split; [rewrite app_length; lia|]. intros fuel' x L. destruct fuel' as [|f]; [lia|]. cbn [block].
      rewrite <- app_assoc. rewrite (cut_line_local d l _ (u ++ x) E), C, B2, M. cbn [negb]. apply G.
      apply cut_line_ends in E as (a & -> & _). rewrite !app_length in L. cbn [List.length] in L. rewrite app_length. lia.
  - intro H. apply IH in H as (u & -> & L2 & G).
    exists (l ++ u). split; [rewrite D; apply app_assoc|]. split; [rewrite app_length; lia|]. intros fuel' x L. destruct fuel' as [|f]; [lia|]. cbn [block].
    rewrite <- app_assoc. rewrite (cut_line_local d l _ (u ++ x) E), C. cbn [negb]. apply G.
    apply cut_line_ends in E as (a & -> & _). rewrite !app_length in L. cbn [List.length] in L. rewrite app_length. lia.
Qed.

(** ** Lines that can be sent *)

Definition line_text (e : bytes * bytes) : bytes := upto_nul (fst e) ++ s2b ": " ++ upto_nul (snd e).
Definition short_line (e : bytes * bytes) : Prop := line_ok e /\ blen (line_text e) + 2 <= 8192.
Lemma write_header_text e : write_header e = line_text e ++ CRLF.
Proof. unfold write_header, line_text. rewrite <- !app_assoc. reflexivity. Qed.
Lemma line_text_lf e : line_ok e -> Forall (fun c => c <> 10) (line_text e).
Proof.
  intros [A B]. unfold line_text, sendable in *. apply Forall_app. split; [eapply Forall_impl; [|exact A]; cbn; intuition|].
  apply Forall_app. split; [repeat constructor; discriminate|]. eapply Forall_impl; [|exact B]; cbn; intuition.
Qed.
Definition read_line (hs : headers) (e : bytes * bytes) : headers := add_parsed (line_text e) hs.

Lemma block_lines : forall lines hs d fuel, Forall short_line lines -> (List.length (flat_map write_header lines ++ CRLF ++ d) < fuel)%nat ->
  block fuel hs (flat_map write_header lines ++ CRLF ++ d) = (true, fold_left read_line lines hs, d).
Proof.
  induction lines as [|e lines IH]; intros hs d fuel F L; (destruct fuel as [|fuel]; [lia|]); cbn [flat_map block fold_left].
  - cbn [app CRLF]. change (13 :: 10 :: d) with ([13] ++ 10 :: d). rewrite cut_line_first by (repeat constructor; discriminate). reflexivity.
  - apply Forall_cons_iff in F as [[A B] F]. rewrite write_header_text, <- !app_assoc. cbn [app CRLF].
    replace (line_text e ++ 13 :: 10 :: flat_map write_header lines ++ 13 :: 10 :: d)
      with ((line_text e ++ [13]) ++ 10 :: flat_map write_header lines ++ 13 :: 10 :: d) by (rewrite <- app_assoc; reflexivity).
    rewrite cut_line_first by (apply Forall_app; split; [apply line_text_lf; exact A|repeat constructor; discriminate]).
    replace ((line_text e ++ [13]) ++ [10]) with (line_text e ++ CRLF) by (rewrite <- app_assoc; reflexivity).
    rewrite crlf_app, crlf_cut. cbn [negb]. rewrite blen_app.
    assert (Z : 2 <= blen (line_text e)) by (unfold line_text; rewrite !blen_app; change (blen (s2b ": ")) with 2; lia).
    change (blen CRLF) with 2. destruct (N.eqb_spec (blen (line_text e) + 2) 2) as [Q|_]; [lia|].
    destruct (N.ltb_spec MAX_LENGTH (blen (line_text e) + 2)) as [Q|_]; [unfold MAX_LENGTH in Q; lia|].
    change (13 :: 10 :: d) with (CRLF ++ d). rewrite IH; [reflexivity|exact F|].
    cbn [flat_map] in L. rewrite write_header_text in L. rewrite !app_length in L. rewrite !app_length. cbn [List.length CRLF] in *. lia.
Qed.
Lemma read_headers_lines s lines d c : Forall short_line lines -> holds (write_headers lines ++ d) c s ->
  exists s', read_headers s = (true, fold_left read_line lines [], s') /\ holds d c s'.
Proof.
  intros F H. destruct (read_headers_spec s _ c H) as (s' & ok & hs & r & E & B & H').
  unfold write_headers in B. rewrite <- app_assoc in B. rewrite block_lines in B by (exact F || lia). injection B as <- <- <-. exists s'. split; assumption.
Qed.

(** ** Plain lines *)

Lemma upto_nul_plain s : Forall (fun c => c <> 0) s -> upto_nul s = s.
Proof. induction 1 as [|c s H F IH]; cbn [upto_nul]; [reflexivity|]. destruct (N.eqb_spec c 0); [contradiction|]. f_equal. exact IH. Qed.
Lemma decode_plain s : Forall (fun c => c <> 37) s -> decode_url s = s.
Proof. induction 1 as [|c s H F IH]; [reflexivity|]. cbn [decode_url]. destruct (N.eqb_spec c 37); [contradiction|]. f_equal. exact IH. Qed.
Lemma cut_colon_spec : forall k acc v, Forall (fun c => c <> 58) k -> cut_colon acc (k ++ 58 :: v) = Some (rev acc ++ k, v).
Proof.
  induction k as [|c k IH]; intros acc v F; cbn [app cut_colon].
  - rewrite app_nil_r. reflexivity.
  - apply Forall_cons_iff in F as [A F]. destruct (N.eqb_spec c 58); [contradiction|]. rewrite IH by exact F. cbn [rev]. rewrite <- app_assoc. reflexivity.
Qed.
Lemma blank_iff c : space_or_tab c = true <-> blank_char c.
Proof. unfold space_or_tab, blank_char. rewrite Bool.orb_true_iff, !N.eqb_eq. reflexivity. Qed.
Lemma trim_left_keep c r : ~ blank_char c -> trim_left (c :: r) = c :: r.
Proof. intro H. cbn [trim_left]. destruct (space_or_tab c) eqn:E; [apply blank_iff in E; contradiction|reflexivity]. Qed.
Lemma trim_right_keep r c : ~ blank_char c -> trim_right (r ++ [c]) = r ++ [c].
Proof. intro H. unfold trim_right. rewrite rev_unit, trim_left_keep by exact H. cbn [rev]. rewrite rev_involutive. reflexivity. Qed.

Lemma plain_value_nonempty v : plain_value v -> v <> [].
Proof. intros (_ & (c & r & -> & _) & _). discriminate. Qed.
Lemma plain_value_chars v : plain_value v -> Forall plain_wire v.
Proof. intros (F & _). exact F. Qed.
Lemma parse_plain k v : plain_name k -> plain_value v -> parse_header (k ++ s2b ": " ++ v) = Some (k, v).
Proof.
  intros [K1 K2] (F & (c & r & E1 & B1) & (r2 & c2 & E2 & B2)). unfold parse_header.
  rewrite E2 at 1. rewrite !app_assoc, trim_right_keep, <- app_assoc by exact B2. rewrite <- app_assoc, <- E2.
  change (s2b ": " ++ v) with (58 :: 32 :: v). rewrite cut_colon_spec by (eapply Forall_impl; [|exact K2]; cbn; intuition).
  cbn [rev app]. cbn [trim_left]. change (space_or_tab 32) with true. cbn iota. rewrite E1 at 1. rewrite trim_left_keep, <- E1 by exact B1.
  destruct v as [|v0 v]; [discriminate|]. destruct k as [|k0 k]; [contradiction|].
  rewrite decode_plain; [destruct (same_ignoring_case _ _); reflexivity|]. eapply Forall_impl; [|exact F]. unfold plain_wire. intuition.
Qed.
Lemma parse_quiet k : plain_name k -> parse_header (k ++ s2b ": ") = None.
Proof.
  intros [K1 K2]. unfold parse_header. change (s2b ": ") with ([58] ++ [32]).
  assert (T : trim_right (k ++ [58] ++ [32]) = k ++ [58]).
  { unfold trim_right. rewrite app_assoc, rev_unit. cbn [trim_left]. change (space_or_tab 32) with true. cbn iota. rewrite rev_unit, trim_left_keep by (unfold blank_char; lia).
    cbn [rev]. rewrite rev_involutive. reflexivity. }
  rewrite T. rewrite cut_colon_spec by (eapply Forall_impl; [|exact K2]; cbn; intuition). cbn [rev app trim_left]. reflexivity.
Qed.

Definition usual_line (e : bytes * bytes) : Prop := plain_line e \/ quiet_line e.
Definition tells (e : bytes * bytes) : bool := negb (beqb (snd e) []).
Lemma name_sendable k : plain_name k -> sendable k /\ upto_nul k = k.
Proof.
  intros [_ K]. assert (U : upto_nul k = k) by (apply upto_nul_plain; eapply Forall_impl; [|exact K]; cbn; unfold plain_wire; intuition).
  split; [|exact U]. unfold sendable. rewrite U. eapply Forall_impl; [|exact K]. cbn. unfold plain_wire. intuition.
Qed.
Lemma value_sendable v : Forall plain_wire v -> sendable v /\ upto_nul v = v.
Proof.
  intro V. assert (U : upto_nul v = v) by (apply upto_nul_plain; eapply Forall_impl; [|exact V]; cbn; unfold plain_wire; intuition).
  split; [|exact U]. unfold sendable. rewrite U. eapply Forall_impl; [|exact V]. cbn. unfold plain_wire. intuition.
Qed.
Lemma usual_short e : usual_line e -> short_line e.
Proof.
  intros [(K & V & L)|(K & V & L)]; destruct (name_sendable _ K) as [K1 K2].
  - destruct (value_sendable _ (plain_value_chars _ V)) as [V1 V2]. split; [split; assumption|]. unfold line_text. rewrite K2, V2, !blen_app. change (blen (s2b ": ")) with 2. lia.
  - destruct e as [k v]. cbn [fst snd] in *. subst v. split; [split; [exact K1|constructor]|]. unfold line_text. cbn [fst snd]. rewrite K2, !blen_app. change (blen (s2b ": ")) with 2. change (blen (upto_nul [])) with 0. lia.
Qed.
Lemma usual_read e hs : usual_line e -> read_line hs e = if tells e then mm_emplace (fst e) (snd e) hs else hs.
Proof.
  intros [(K & V & L)|(K & V & L)]; destruct (name_sendable _ K) as [K1 K2]; unfold read_line, add_parsed, line_text, tells.
  - destruct (value_sendable _ (plain_value_chars _ V)) as [V1 V2]. rewrite K2, V2, parse_plain by assumption.
    apply plain_value_nonempty in V. apply beqb_neq in V. rewrite V. reflexivity.
  - rewrite V, K2. change (upto_nul []) with (@nil N). rewrite app_nil_r, parse_quiet by exact K. reflexivity.
Qed.
Lemma usual_fold : forall lines hs, Forall usual_line lines -> fold_left read_line lines hs = fold_left (fun m e => mm_emplace (fst e) (snd e) m) (filter tells lines) hs.
Proof.
  induction lines as [|e lines IH]; intros hs F; cbn [fold_left filter]; [reflexivity|]. apply Forall_cons_iff in F as [A F].
  rewrite usual_read by exact A. destruct (tells e); cbn [fold_left]; apply IH; exact F.
Qed.
Lemma usual_headers s lines d c : Forall usual_line lines -> holds (write_headers lines ++ d) c s ->
  exists s', read_headers s = (true, arriving (filter tells lines), s') /\ holds d c s'.
Proof.
  intros F H. destruct (read_headers_lines s lines d c (Forall_impl _ usual_short F) H) as (s' & E & H').
  exists s'. split; [|exact H']. rewrite E. unfold arriving. rewrite usual_fold by exact F. reflexivity.
Qed.

(** ** Values *)

Lemma header_value_ci k hs : header_value k hs = match values_ci k hs with v :: _ => upto_nul v | [] => [] end.
Proof.
  unfold header_value, values_ci. induction hs as [|e hs IH]; cbn [find filter map]; [reflexivity|].
  rewrite ci_same_names. destruct (beqb (map tolower k) (map tolower (fst e))); [reflexivity|exact IH].
Qed.
Lemma mm_has_ci k hs : mm_has k hs = negb (match values_ci k hs with [] => true | _ => false end).
Proof.
  unfold mm_has, values_ci. induction hs as [|e hs IH]; cbn [existsb filter map]; [reflexivity|].
  rewrite ci_same_names. destruct (beqb (map tolower k) (map tolower (fst e))); [reflexivity|exact IH].
Qed.
Lemma arriving_values k lines : values_ci k (arriving lines) = values_ci k lines.
Proof.
  unfold values_ci. apply (arriving_filter (fun n => beqb (map tolower k) (map tolower n))). intros a b A B. apply beqb_eq in A, B. unfold same_name. congruence.
Qed.
Lemma tells_values k lines : values_ci k (filter tells lines) = filter (fun v => negb (beqb v [])) (values_ci k lines).
Proof.
  unfold values_ci. induction lines as [|e lines IH]; cbn [filter map]; [reflexivity|]. unfold tells at 1.
  destruct (beqb (map tolower k) (map tolower (fst e))) eqn:A; cbn [map filter].
  - destruct (negb (beqb (snd e) [])) eqn:B; [cbn [filter]; rewrite A; cbn [map]; f_equal|]; exact IH.
  - destruct (negb (beqb (snd e) [])); [cbn [filter]; rewrite A|]; exact IH.
Qed.
