(** Proofs: what a request with a content in parts is read as, and what it leaves. *)
From Coq Require Import ZifyBool ZifyNat ZifyN.
From Verif Require Import Base PBase MSerialize MHttp SHttp PHttp MTls MWire MRange SWire PWire PWire2 PWire3 PWire4 PWire5 PWire6 PWire7 PWire8 SLength PLength MMultipart SMultipart PMultipart PHeadLines PMultipart2.
Open Scope N_scope.

Lemma between_first b x : has_prefix (s2b "--" ++ b ++ CRLF) ((s2b "--" ++ b ++ CRLF) ++ x) = true /\ place_of (s2b "--" ++ b ++ CRLF) ((s2b "--" ++ b ++ CRLF) ++ x) = O.
Proof. split; [apply prefix_app|]. apply (place_first (s2b "--" ++ b ++ CRLF) [] x). intros i I. cbn in I. lia. Qed.

Lemma into_good b all : Forall boundary_char b -> Forall (part_ok b) all -> (List.length all <= FILE_MAX_COUNT)%nat -> forall fuel left p s R more c, holds (R ++ more) c s -> N.of_nat (List.length R) = left -> (List.length R < fuel)%nat ->
  Good b all p (ps_buf p ++ R) -> (R = [] -> Final all p) -> exists p' s', length_into fuel left b p s = (true, p', s') /\ Final all p' /\ holds more c s'.
Proof.
  intros Hb Ha Hc. induction fuel as [|fuel IH]; intros left p s R more c H LR LF G F0; [lia|]. cbn [length_into]. destruct (N.eqb_spec left 0) as [Z|NZ].
  - exists p, s. destruct R; [|cbn in LR; lia]. split; [reflexivity|]. split; [apply F0; reflexivity|exact H].
  - destruct R as [|r0 R]; [cbn in LR; lia|]. destruct (read_some (N.min left 4096) s r0 (R ++ more) c H ltac:(lia)) as (k & s1 & K1 & K2 & RD & H1). rewrite RD. clear RD.
    change (r0 :: R ++ more) with ((r0 :: R) ++ more) in *. remember (r0 :: R) as Q eqn:EQ. clear r0 R EQ K2. assert (KQ : (k <= List.length Q)%nat) by lia.
    assert (FK : firstn k (Q ++ more) = firstn k Q) by (rewrite firstn_app; replace (k - List.length Q)%nat with O by lia; cbn [firstn]; apply app_nil_r).
    assert (SK : skipn k (Q ++ more) = skipn k Q ++ more) by (rewrite skipn_app; replace (k - List.length Q)%nat with O by lia; reflexivity).
    rewrite FK. rewrite SK in H1. unfold parse_part.
    destruct (loop_good b Hb all Ha Hc (2 * List.length (ps_buf p ++ firstn k Q) + 2) (mk_parser (ps_state p) (ps_valid p) (ps_buf p ++ firstn k Q) (ps_file p) (ps_files p)) (skipn k Q)) as (p' & PL & G' & F').
    + unfold weight. cbn [ps_buf ps_state]. destruct (ps_state p); lia.
    + cbn [ps_buf]. rewrite <- app_assoc, firstn_skipn. unfold Good in *. cbn [ps_buf ps_state ps_valid ps_file ps_files]. exact G.
    + rewrite PL. apply (IH (left - blen (firstn k Q)) p' s1 (skipn k Q) more c H1); [unfold blen; rewrite firstn_length, skipn_length; lia|rewrite skipn_length; lia|exact G'|exact F'].
Qed.

Lemma chars_upto : forall t, Forall (fun c => c <> 0) t -> upto_nul t = t.
Proof. induction 1 as [|c t H F IH]; [reflexivity|]. cbn [upto_nul]. replace (c =? 0) with false by lia. rewrite IH. reflexivity. Qed.
Lemma place_absent d : forall t, Forall (fun c => c <> d) t -> place_of [d] t = List.length t.
Proof. induction 1 as [|c t H F IH]; [reflexivity|]. cbn [place_of List.length]. unfold has_prefix. cbn [List.length firstn beqb]. replace (c =? d) with false by lia. cbn [andb]. rewrite IH. reflexivity. Qed.
Definition form_type (b : bytes) : bytes := s2b "multipart/form-data; boundary=" ++ b.
Lemma form_boundary b : boundary_ok b -> parse_boundary (form_type b) = Some b.
Proof.
  intros (N0 & F & _). unfold parse_boundary. change (skipn (place_of (s2b "boundary=") (form_type b)) (form_type b)) with (s2b "boundary=" ++ b).
  rewrite place_absent.
  2: { apply Forall_app. split; [|apply chars_not; [exact F|not_char]]. apply Forall_forall; intros c I; vm_compute in I; repeat (destruct I as [<-|I]; [lia|]); destruct I. }
  rewrite firstn_all. cbv zeta. change (skipn 9 (s2b "boundary=" ++ b)) with b. destruct b as [|c0 b0]; [congruence|]. inversion F as [|? ? B0 _]; subst.
  assert (T : trim_quotes (c0 :: b0) = c0 :: b0).
  { unfold trim_quotes. cbn [hd]. replace (c0 =? 34) with false by (unfold boundary_char in B0; lia). rewrite Bool.andb_false_r. reflexivity. }
  rewrite T. reflexivity.
Qed.

(** A form is read as it was written. *)
Theorem form_read b l hs s more r : boundary_ok b -> Forall (part_ok b) l -> l <> [] -> (List.length l <= FILE_MAX_COUNT)%nat ->
  values_ci (s2b "Content-Type") hs = (s2b "multipart/form-data; boundary=" ++ b) :: r -> values_ci (s2b "Content-Encoding") hs = [] -> values_ci (s2b "Transfer-Encoding") hs = [] ->
  values_ci (s2b "Content-Length") hs = [dec_digits (blen (form_text b l))] -> blen (form_text b l) <= ULONG_MAX -> st_data s = form_text b l ++ more -> blen b + 4 <= st_pick s (st_reads s) ->
  exists s', read_form (s2b "POST") hs s = (Form (map (fun x => mk_part (head_name (fst x)) (head_type (fst x)) (snd x)) l) hs, s') /\ st_data s' = more.
Proof.
  intros HB HP NE HC VT VE VC VL LL SD PK. pose proof HB as (B0 & BF & BL). unfold read_form. rewrite !header_value_ci, VT, VE, VC, VL.
  rewrite chars_upto.
  2: { apply Forall_app. split; [|apply chars_not; [exact BF|not_char]]. apply Forall_forall; intros c I; vm_compute in I; repeat (destruct I as [<-|I]; [lia|]); destruct I. }
  fold (form_type b). rewrite form_boundary by exact HB. change (beqb (s2b "POST") (s2b "DELETE")) with false. cbn [andb].
  change (beqb [] (s2b "gzip") || beqb [] (s2b "deflate") || contains (s2b "br") []) with false. cbn iota. change (same_ignoring_case [] (s2b "chunked")) with false. cbn iota.
  rewrite mm_has_ci, VL. cbn [negb]. rewrite (digits_upto (dec_digits (blen (form_text b l)))).
  2: { destruct (digits_cons (blen (form_text b l))) as (c & d & E & _). split; [rewrite E; discriminate|]. exact (digits_digit _). }
  rewrite strtoul_digits by exact LL. cbn [fst].
  destruct l as [|x l]; [congruence|]. set (all := x :: l) in *. set (R := part_text x ++ between b ++ tail_text b l). set (first := s2b "--" ++ b ++ CRLF).
  assert (FT : form_text b all = first ++ R) by (unfold form_text, all, first, R; cbn [tail_text]; rewrite <- !app_assoc; reflexivity).
  assert (FL : blen first = blen b + 4) by (unfold first, blen; rewrite !app_length; cbn [List.length s2b CRLF]; change (List.length (s2b "--")) with 2%nat; lia).
  assert (FD : s2b "--" ++ b ++ CRLF = first) by reflexivity. assert (RDf : R = part_text x ++ between b ++ tail_text b l) by reflexivity. rewrite FT in *. clearbody first R. cbn [length_into].
  assert (BF0 : blen (first ++ R) = blen first + blen R) by apply blen_app.
  destruct (N.eqb_spec (blen (first ++ R)) 0); [lia|].
  assert (RD : exists k s1, (List.length first <= k <= List.length (first ++ R))%nat /\ read (N.min (blen (first ++ R)) 4096) s = (GBytes (firstn k ((first ++ R) ++ more)), s1) /\ holds (skipn k ((first ++ R) ++ more)) (st_closed s) s1).
  { unfold read. rewrite SD. remember ((first ++ R) ++ more) as D eqn:ED. assert (LD : blen D = blen first + blen R + blen more) by (rewrite ED, blen_app, BF0; reflexivity).
    destruct D as [|d0 D]; [cbn in LD; lia|]. cbv zeta. eexists _, _. split; [|split; [reflexivity|split; reflexivity]]. revert LD. generalize (blen (d0 :: D)). intros n0 LD. unfold blen in *. lia. }
  destruct RD as (k & s1 & [K1 K2] & RD & H1). rewrite RD. clear RD.
  assert (FK : exists x1, firstn k ((first ++ R) ++ more) = first ++ x1 /\ x1 ++ skipn k (first ++ R) = R /\ skipn k ((first ++ R) ++ more) = skipn k (first ++ R) ++ more).
  { exists (firstn (k - List.length first) R). split; [|split].
    - rewrite firstn_app. replace (k - List.length (first ++ R))%nat with O by lia. cbn [firstn]. rewrite app_nil_r, firstn_app, firstn_all2 by lia. reflexivity.
    - rewrite skipn_app, skipn_all2 by lia. cbn [app]. apply firstn_skipn.
    - rewrite skipn_app. replace (k - List.length (first ++ R))%nat with O by lia. reflexivity. }
  destruct FK as (x1 & FK & XR & SK). rewrite FK. rewrite SK in H1.
  assert (LX : (List.length first + List.length x1 = k)%nat).
  { pose proof (f_equal (@List.length N) FK) as Q. rewrite firstn_length, !app_length in Q. rewrite app_length in K2. lia. }
  assert (PP : exists p1, parse_part b (first ++ x1) new_parser = (p1, true) /\ Good b all p1 (ps_buf p1 ++ skipn k (first ++ R)) /\ (skipn k (first ++ R) = [] -> Final all p1)).
  { unfold parse_part. cbn [new_parser ps_state ps_valid ps_buf ps_file ps_files app]. replace (2 * List.length (first ++ x1) + 2)%nat with (S (2 * List.length (first ++ x1) + 1)) by lia. cbn [parse_loop ps_buf ps_state ps_valid ps_file ps_files].
    destruct (between_first b x1) as [HP1 HP2]. rewrite FD in *. remember (first ++ x1) as buf eqn:EB. destruct buf as [|c0 buf0]; [exfalso; pose proof (f_equal (@List.length N) EB) as Q; rewrite app_length in Q; unfold blen in FL; cbn in Q; lia|].
    remember (c0 :: buf0) as buf. cbv zeta. rewrite HP2. cbn [skipn]. replace (Nat.ltb (List.length buf) (List.length first)) with false by (symmetry; apply Nat.ltb_ge; rewrite EB, app_length; lia).
    rewrite HP1. cbn [negb]. replace (skipn (List.length first) buf) with x1 by (rewrite EB, skipn_app, skipn_all, Nat.sub_diag; reflexivity).
    apply (loop_good b BF all HP HC).
    - unfold weight. cbn [ps_buf ps_state]. rewrite EB, app_length. unfold blen in FL. lia.
    - unfold Good. cbn [ps_buf ps_state ps_valid ps_file ps_files]. right. exists [], x, l. split; [reflexivity|]. split; [reflexivity|]. rewrite XR. exact RDf. }
  destruct PP as (p1 & PP & G1 & F1). rewrite PP.
  destruct (into_good b all BF HP HC (List.length (st_data s)) (blen (first ++ R) - blen (first ++ x1)) p1 s1 (skipn k (first ++ R)) more (st_closed s) H1) as (p2 & s2 & LI & [F2 F3] & H2).
  - rewrite skipn_length. unfold blen. rewrite !app_length in *. lia.
  - rewrite SD, skipn_length, !app_length. unfold blen in FL. lia.
  - exact G1.
  - exact F1.
  - rewrite LI, F2, F3. exists s2. split; [reflexivity|exact (proj1 H2)].
Qed.
