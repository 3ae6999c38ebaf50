(** Proofs: contents in parts that are sent in chunks. *)
From Coq Require Import ZifyBool ZifyNat ZifyN.
From Verif Require Import Base PBase MSerialize MHttp SHttp PHttp MTls MWire MRange SWire PWire PWire2 PWire3 PWire4 PWire5 PWire6 PWire7 PWire8 SLength PLength SChunk PChunk MMultipart SMultipart PMultipart PHeadLines PMultipart2 PMultipart3.
Open Scope N_scope.

Lemma getline_reads_loop : forall fuel acc s o s', getline_loop fuel acc s = (o, s') -> st_pick s' = st_pick s /\ (st_reads s' + List.length (st_data s') = st_reads s + List.length (st_data s))%nat.
Proof.
  induction fuel as [|fuel IH]; intros acc s o s'; cbn [getline_loop]; [intro E; injection E as _ <-; split; reflexivity|]. destruct (st_data s) as [|d0 d] eqn:D.
  - unfold read. rewrite D. destruct (st_closed s); intro E; injection E as _ <-; rewrite D; split; reflexivity.
  - unfold read. rewrite D. cbv zeta. replace (N.to_nat (N.max 1 (N.min (st_pick s (st_reads s)) (N.min 1 (blen (d0 :: d)))))) with 1%nat by (unfold blen; cbn [List.length]; lia). cbn [firstn skipn].
    destruct (beqb [d0] [10]); [intro E; injection E as _ <-; cbn [st_pick st_reads st_data List.length]; split; [reflexivity|lia]|]. intro E. apply IH in E as [E1 E2]. cbn [st_pick st_reads st_data List.length] in *. split; [exact E1|lia].
Qed.
Lemma getline_reads s o s' : getline s = (o, s') -> st_pick s' = st_pick s /\ (st_reads s' + List.length (st_data s') = st_reads s + List.length (st_data s))%nat.
Proof. apply getline_reads_loop. Qed.

Section Pieces.
Variables (b : bytes) (all : list field).
Hypothesis Hb : Forall boundary_char b.
Hypothesis Hlen : blen b <= 4000.
Hypothesis Ha : Forall (part_ok b) all.
Hypothesis Hc : (List.length all <= FILE_MAX_COUNT)%nat.

Lemma into_piece : forall fuel left p s R later more c, holds (R ++ more) c s -> N.of_nat (List.length R) = left -> (List.length R < fuel)%nat ->
  Good b all p (ps_buf p ++ R ++ later) -> (R ++ later = [] -> Final all p) -> exists p' s', length_into fuel left b p s = (true, p', s') /\ Good b all p' (ps_buf p' ++ later) /\ (later = [] -> Final all p') /\ holds more c s'.
Proof.
  induction fuel as [|fuel IH]; intros left p s R later more c H LR LF G F0; [lia|]. cbn [length_into]. destruct (N.eqb_spec left 0) as [Z|NZ].
  - exists p, s. destruct R; [|cbn in LR; lia]. split; [reflexivity|]. split; [exact G|]. split; [exact F0|exact H].
  - destruct R as [|r0 R]; [cbn in LR; lia|]. destruct (read_some (N.min left 4096) s r0 (R ++ more) c H ltac:(lia)) as (k & s1 & K1 & K2 & RD & H1). rewrite RD. clear RD.
    change (r0 :: R ++ more) with ((r0 :: R) ++ more) in *. remember (r0 :: R) as Q eqn:EQ. clear r0 R EQ K2. assert (KQ : (k <= List.length Q)%nat) by lia.
    assert (FK : firstn k (Q ++ more) = firstn k Q) by (rewrite firstn_app; replace (k - List.length Q)%nat with O by lia; cbn [firstn]; apply app_nil_r).
    assert (SK : skipn k (Q ++ more) = skipn k Q ++ more) by (rewrite skipn_app; replace (k - List.length Q)%nat with O by lia; reflexivity).
    rewrite FK. rewrite SK in H1. unfold parse_part.
    destruct (loop_good b Hb all Ha Hc (2 * List.length (ps_buf p ++ firstn k Q) + 2) (mk_parser (ps_state p) (ps_valid p) (ps_buf p ++ firstn k Q) (ps_file p) (ps_files p)) (skipn k Q ++ later)) as (p' & PL & G' & F').
    + unfold weight. cbn [ps_buf ps_state]. destruct (ps_state p); lia.
    + cbn [ps_buf]. rewrite <- app_assoc, (app_assoc (firstn k Q)), firstn_skipn. unfold Good in *. cbn [ps_buf ps_state ps_valid ps_file ps_files]. exact G.
    + rewrite PL. apply (IH (left - blen (firstn k Q)) p' s1 (skipn k Q) later more c H1); [unfold blen; rewrite firstn_length, skipn_length; lia|rewrite skipn_length; lia|exact G'|exact F'].
Qed.

(** The piece with the first line. *)
Lemma into_first x l fuel s y later more c : all = x :: l -> y ++ later = part_text x ++ between b ++ tail_text b l -> let R := (s2b "--" ++ b ++ CRLF) ++ y in
  holds (R ++ more) c s -> blen b + 4 <= st_pick s (st_reads s) -> (List.length R < fuel)%nat ->
  exists p' s', length_into fuel (blen R) b new_parser s = (true, p', s') /\ Good b all p' (ps_buf p' ++ later) /\ (later = [] -> Final all p') /\ holds more c s'.
Proof.
  intros EA EY R H PK LF. set (first := s2b "--" ++ b ++ CRLF) in *. assert (ER : R = first ++ y) by reflexivity. assert (FD : s2b "--" ++ b ++ CRLF = first) by reflexivity.
  assert (FL : blen first = blen b + 4) by (unfold first, blen; rewrite !app_length; cbn [List.length s2b CRLF]; change (List.length (s2b "--")) with 2%nat; lia). clearbody R first.
  destruct fuel as [|fuel]; [lia|]. cbn [length_into]. assert (RL : blen R = blen first + blen y) by (rewrite ER; apply blen_app). destruct (N.eqb_spec (blen R) 0); [lia|].
  assert (RD : exists k s1, (List.length first <= k <= List.length R)%nat /\ read (N.min (blen R) 4096) s = (GBytes (firstn k (R ++ more)), s1) /\ holds (skipn k (R ++ more)) c s1).
  { destruct H as [SD SC]. unfold read. rewrite SD. remember (R ++ more) as D eqn:ED. assert (LD : blen D = blen first + blen y + blen more) by (rewrite ED, blen_app, RL; reflexivity).
    destruct D as [|d0 D]; [cbn in LD; lia|]. cbv zeta. eexists _, _. split; [|split; [reflexivity|split; [reflexivity|exact SC]]]. revert LD. generalize (blen (d0 :: D)). intros n0 LD. unfold blen in *. lia. }
  destruct RD as (k & s1 & [K1 K2] & RD & H1). rewrite RD. clear RD.
  assert (FK : firstn k (R ++ more) = firstn k R) by (rewrite firstn_app; replace (k - List.length R)%nat with O by lia; cbn [firstn]; apply app_nil_r).
  assert (SK : skipn k (R ++ more) = skipn k R ++ more) by (rewrite skipn_app; replace (k - List.length R)%nat with O by lia; reflexivity). rewrite FK. rewrite SK in H1.
  set (x1 := firstn (k - List.length first) y). assert (FX : firstn k R = first ++ x1) by (rewrite ER, firstn_app, firstn_all2 by lia; reflexivity).
  assert (XR : x1 ++ skipn k R = y) by (rewrite ER, skipn_app, skipn_all2 by lia; cbn [app]; apply firstn_skipn). rewrite FX. clearbody x1.
  assert (LX : (List.length first + List.length x1 = k)%nat).
  { pose proof (f_equal (@List.length N) FX) as Q. rewrite firstn_length, !app_length in Q. lia. }
  assert (PP : exists p1, parse_part b (first ++ x1) new_parser = (p1, true) /\ Good b all p1 (ps_buf p1 ++ skipn k R ++ later) /\ (skipn k R ++ later = [] -> Final all p1)).
  { unfold parse_part. cbn [new_parser ps_state ps_valid ps_buf ps_file ps_files app]. replace (2 * List.length (first ++ x1) + 2)%nat with (S (2 * List.length (first ++ x1) + 1)) by lia. cbn [parse_loop ps_buf ps_state ps_valid ps_file ps_files].
    destruct (between_first b x1) as [HP1 HP2]. rewrite FD in *. remember (first ++ x1) as buf eqn:EB. destruct buf as [|c0 buf0]; [exfalso; pose proof (f_equal (@List.length N) EB) as Q; rewrite app_length in Q; unfold blen in FL; cbn in Q; lia|].
    remember (c0 :: buf0) as buf. cbv zeta. rewrite HP2. cbn [skipn]. replace (Nat.ltb (List.length buf) (List.length first)) with false by (symmetry; apply Nat.ltb_ge; rewrite EB, app_length; lia).
    rewrite HP1. cbn [negb]. replace (skipn (List.length first) buf) with x1 by (rewrite EB, skipn_app, skipn_all, Nat.sub_diag; reflexivity).
    apply (loop_good b Hb all Ha Hc).
    - unfold weight. cbn [ps_buf ps_state]. rewrite EB, app_length. unfold blen in FL. lia.
    - unfold Good. cbn [ps_buf ps_state ps_valid ps_file ps_files]. right. exists [], x, l. split; [exact EA|]. split; [reflexivity|]. rewrite app_assoc, XR. exact EY. }
  destruct PP as (p1 & PP & G1 & F1). rewrite PP.
  apply (into_piece fuel (blen R - blen (first ++ x1)) p1 s1 (skipn k R) later more c H1); [|rewrite skipn_length; unfold blen in FL; lia|exact G1|exact F1].
  rewrite skipn_length. unfold blen. rewrite app_length. lia.
Qed.

Variables (t0 e0 : bytes) (tr : list (bytes * bytes)).
Hypothesis L0 : last_ok t0 e0.
Hypothesis FT : Forall plain_line tr.
Lemma chunked_cons k ks more : chunked_text (k :: ks) t0 e0 tr ++ more = ck_size k ++ ck_extension k ++ CRLF ++ (ck_data k ++ CRLF ++ (chunked_text ks t0 e0 tr ++ more)).
Proof. unfold chunked_text; cbn [flat_map]; unfold chunk_text; rewrite <- !app_assoc; reflexivity. Qed.
Lemma chunks_good : forall ks fuel hs p s c more, Forall chunk_ok ks -> holds (chunked_text ks t0 e0 tr ++ more) c s -> (List.length ks < fuel)%nat -> Good b all p (ps_buf p ++ data_of ks) -> (data_of ks = [] -> Final all p) ->
  exists p' s', chunks_into fuel b hs p s = (true, p', emplaced tr hs, s') /\ Final all p' /\ holds more c s'.
Proof.
  destruct L0 as (NE0 & Z0 & X0). destruct (zeros_hex t0 Z0) as [F0 V0]. induction ks as [|k ks IH]; intros fuel hs p s c more F H L G FP; (destruct fuel as [|fuel]; [cbn in L; lia|]); cbn [chunks_into].
  - unfold chunked_text in H. cbn [flat_map app] in H. rewrite <- !app_assoc in H.
    destruct (size_line s t0 e0 (write_headers tr ++ more) c NE0 F0 X0 ltac:(rewrite V0; vm_compute; discriminate) H) as (line & s1 & GL & SU & H1). rewrite GL, SU, V0. change (negb true || (0 =? ULONG_MAX)) with false. change (0 =? 0) with true. cbn iota.
    destruct (trailers_whole tr hs s1 c more FT H1) as (l2 & s2 & G2 & K). rewrite G2. destruct (K (List.length (st_data s2)) (le_n _)) as (s3 & -> & H3). exists p, s3. split; [reflexivity|]. split; [apply FP; reflexivity|exact H3].
  - apply Forall_cons_iff in F as [(A1 & A2 & A3 & A4 & A5) F]. rewrite chunked_cons in H.
    destruct (size_line s (ck_size k) (ck_extension k) _ c A1 A2 A3 ltac:(rewrite A4; unfold ULONG_MAX; lia) H) as (line & s1 & GL & SU & H1). rewrite GL, SU, A4.
    replace (negb true || (blen (ck_data k) =? ULONG_MAX)) with false by (unfold ULONG_MAX; lia). replace (blen (ck_data k) =? 0) with false by lia. cbn iota.
    destruct (into_piece (S (List.length (st_data s1))) (blen (ck_data k)) p s1 (ck_data k) (data_of ks) _ c H1 eq_refl) as (p1 & s2 & LI & G1 & F1 & H2); [destruct H1 as [-> _]; rewrite app_length; lia|exact G|exact FP|].
    rewrite LI. cbn [negb]. destruct (crlf_line s2 _ c H2) as (s3 & -> & H3). change (beqb (upto_nul CRLF) CRLF) with true. cbn iota. apply (IH fuel hs p1 s3 c more F H3); [cbn [List.length] in L; lia|exact G1|exact F1].
Qed.
End Pieces.

(** A form in chunks is read as it was written. *)
Theorem chunked_form b l hs s more r v k ks size extension trailer : boundary_ok b -> Forall (part_ok b) l -> l <> [] -> (List.length l <= FILE_MAX_COUNT)%nat ->
  values_ci (s2b "Content-Type") hs = (s2b "multipart/form-data; boundary=" ++ b) :: r -> values_ci (s2b "Content-Encoding") hs = [] -> values_ci (s2b "Transfer-Encoding") hs = [v] -> plain_value v -> same_name v (s2b "chunked") ->
  Forall chunk_ok (k :: ks) -> last_ok size extension -> Forall plain_line trailer -> data_of (k :: ks) = form_text b l -> blen b + 4 <= blen (ck_data k) ->
  st_data s = chunked_text (k :: ks) size extension trailer ++ more -> blen b + 4 <= st_pick s (st_reads s + List.length (ck_size k ++ ck_extension k ++ CRLF)) ->
  exists hs' s', read_form (s2b "POST") hs s = (Form (map (fun x => mk_part (head_name (fst x)) (head_type (fst x)) (snd x)) l) hs', s') /\ st_data s' = more.
Proof.
  intros HB HP NE HC VT VE VC PV SN CK L0 FT DT KL SD PK. pose proof HB as (B0 & BF & BL). unfold read_form. rewrite !header_value_ci, VT, VE, VC.
  rewrite chars_upto.
  2: { apply Forall_app. split; [|apply chars_not; [exact BF|not_char]]. apply Forall_forall; intros c I; vm_compute in I; repeat (destruct I as [<-|I]; [lia|]); destruct I. }
  fold (form_type b). rewrite form_boundary by exact HB. change (beqb (s2b "POST") (s2b "DELETE")) with false. cbn [andb].
  change (beqb [] (s2b "gzip") || beqb [] (s2b "deflate") || contains (s2b "br") []) with false. cbn iota.
  destruct (value_sendable _ (plain_value_chars _ PV)) as [_ ->]. unfold same_ignoring_case. rewrite SN, beqb_refl. cbn iota.
  destruct l as [|x l]; [congruence|]. cbn [chunks_into]. apply Forall_cons_iff in CK as [(A1 & A2 & A3 & A4 & A5) CK]. 
  assert (H : holds (chunked_text (k :: ks) size extension trailer ++ more) (st_closed s) s) by (split; [exact SD|reflexivity]). rewrite chunked_cons in H.
  destruct (size_line s (ck_size k) (ck_extension k) _ _ A1 A2 A3 ltac:(rewrite A4; unfold ULONG_MAX; lia) H) as (line & s1 & GL & SU & H1). rewrite GL, SU, A4.
  replace (negb true || (blen (ck_data k) =? ULONG_MAX)) with false by (unfold ULONG_MAX; lia). replace (blen (ck_data k) =? 0) with false by lia. cbn iota.
  apply getline_reads in GL as [G1 G2].
  assert (RS : st_reads s1 = (st_reads s + List.length (ck_size k ++ ck_extension k ++ CRLF))%nat).
  { destruct H1 as [D1 _]. destruct H as [D0 _]. rewrite D1, D0 in G2. rewrite !app_length in *. cbn [List.length CRLF] in *. lia. }
  assert (Y : exists y, ck_data k = (s2b "--" ++ b ++ CRLF) ++ y /\ y ++ data_of ks = part_text x ++ between b ++ tail_text b l).
  { assert (FL : blen (s2b "--" ++ b ++ CRLF) = blen b + 4) by (unfold blen; rewrite !app_length; cbn [List.length CRLF]; change (List.length (s2b "--")) with 2%nat; lia).
    assert (E : ck_data k ++ data_of ks = (s2b "--" ++ b ++ CRLF) ++ part_text x ++ between b ++ tail_text b l) by (change (ck_data k ++ data_of ks) with (data_of (k :: ks)); rewrite DT; unfold form_text; cbn [tail_text]; rewrite <- !app_assoc; reflexivity).
    remember (s2b "--" ++ b ++ CRLF) as first. exists (skipn (List.length first) (ck_data k)).
    assert (P1 : firstn (List.length first) (ck_data k) = first).
    { apply (f_equal (firstn (List.length first))) in E. rewrite !firstn_app, firstn_all, Nat.sub_diag in E. cbn [firstn] in E. rewrite app_nil_r in E. replace (List.length first - List.length (ck_data k))%nat with O in E by (unfold blen in *; lia). cbn [firstn] in E. rewrite app_nil_r in E. exact E. }
    split; [rewrite <- P1 at 1; symmetry; apply firstn_skipn|].
    apply (f_equal (skipn (List.length first))) in E. rewrite !skipn_app, skipn_all, Nat.sub_diag in E. cbn [skipn app] in E. replace (List.length first - List.length (ck_data k))%nat with O in E by (unfold blen in *; lia). cbn [skipn] in E. exact E. }
  destruct Y as (y & Y1 & Y2). rewrite Y1 in H1 |- *.
  destruct (into_first b (x :: l) BF BL HP HC x l (S (List.length (st_data s1))) s1 y (data_of ks) _ (st_closed s) eq_refl Y2 H1) as (p1 & s2 & LI & G3 & F3 & H2); [rewrite G1, RS; exact PK|destruct H1 as [-> _]; rewrite (app_length _ (CRLF ++ _)); lia|].
  rewrite LI. cbn [negb]. destruct (crlf_line s2 _ _ H2) as (s3 & -> & H3). change (beqb (upto_nul CRLF) CRLF) with true. cbn iota.
  destruct (chunks_good b (x :: l) BF BL HP HC size extension trailer L0 FT ks (List.length (st_data s)) hs p1 s3 _ more CK H3) as (p2 & s4 & CI & [F4 F5] & H4); [|exact G3|exact F3|].
  - rewrite SD, chunked_cons. pose proof (chunks_count size extension trailer ks more CK). rewrite !app_length in *. cbn [List.length CRLF]. lia.
  - rewrite CI, F4, F5. eexists _, s4. split; [reflexivity|exact (proj1 H4)].
Qed.
