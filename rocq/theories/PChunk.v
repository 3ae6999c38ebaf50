(** Proofs about messages in chunks: reading them. *)
From Coq Require Import ZifyBool ZifyNat ZifyN Sorted.
From Verif Require Import Base PBase MSerialize MHttp SHttp PHttp PHttp2 MTls MWire SWire PWire PWire2 PWire3 PWire4 PWire5 PWire6 PWire7 PWire8 SChunk.
Open Scope N_scope.

(** *** Sizes *)
Lemma hex_digit_read c : hex_digit c -> digit_value 16 c = Some (hex_digit_value c).
Proof.
  unfold hex_digit, digit_value, hex_value, hex_digit_value. intro H.
  destruct ((48 <=? c) && (c <=? 57)) eqn:A; [replace (c <=? 57) with true by lia; replace (c - 48 <? 16) with true by lia; reflexivity|].
  replace (c <=? 57) with false by lia. destruct ((65 <=? c) && (c <=? 70)) eqn:B; [replace (c <=? 70) with true by lia; replace (c - 55 <? 16) with true by lia; reflexivity|].
  replace (c <=? 70) with false by lia. replace ((97 <=? c) && (c <=? 102)) with true by lia. replace (c - 87 <? 16) with true by lia. reflexivity.
Qed.
Definition no_digit (c : N) : Prop := In c [9; 13; 32; 59].
Lemma no_digit_read c : no_digit c -> digit_value 16 c = None.
Proof. intros [<-|[<-|[<-|[<-|[]]]]]; reflexivity. Qed.
(** What follows a size. *)
Definition after_size (e : bytes) : Prop := e = [] \/ exists c r, e = c :: r /\ no_digit c.
Lemma number_hex : forall t acc e, Forall hex_digit t -> after_size e -> number_value 16 acc (t ++ e) = fold_left (fun n c => 16 * n + hex_digit_value c) t acc.
Proof.
  induction t as [|c t IH]; intros acc e F A; cbn [app fold_left].
  - destruct A as [->|(c & r & -> & Q)]; [reflexivity|]. cbn [number_value]. rewrite no_digit_read by exact Q. reflexivity.
  - apply Forall_cons_iff in F as [H F]. cbn [number_value]. rewrite hex_digit_read by exact H. rewrite IH by assumption. f_equal. lia.
Qed.
Lemma size_read t e : t <> [] -> Forall hex_digit t -> after_size e -> hex_read t <= ULONG_MAX -> strtoul 16 (t ++ e) = (hex_read t, true).
Proof.
  intros NE F A L. unfold strtoul. destruct t as [|c t]; [contradiction|]. pose proof (Forall_inv F) as H. cbn [app skip_white]. unfold hex_digit in H. replace (white c) with false by (unfold white; lia).
  cbn iota. replace (c =? 45) with false by lia. replace (c =? 43) with false by lia. cbn iota.
  assert (S : match t ++ e with x :: r0 => if (16 =? 16) && (c =? 48) && ((x =? 120) || (x =? 88)) && starts_number 16 r0 then r0 else c :: t ++ e | [] => c :: t ++ e end = c :: t ++ e).
  { destruct (t ++ e) as [|x r0] eqn:E; [reflexivity|]. assert (Q : (x =? 120) || (x =? 88) = false).
    { destruct t as [|x' t]; cbn [app] in E.
      - destruct A as [->|(x' & r & -> & Q)]; [discriminate|]. injection E as -> _. destruct Q as [<-|[<-|[<-|[<-|[]]]]]; reflexivity.
      - injection E as -> _. apply Forall_inv_tail, Forall_inv in F. unfold hex_digit in F. lia. }
    rewrite Q, Bool.andb_false_r. reflexivity. }
  rewrite S. clear S. cbn [starts_number]. rewrite hex_digit_read by (apply Forall_inv in F; exact F). cbv zeta.
  change (c :: t ++ e) with ((c :: t) ++ e). rewrite number_hex by assumption. fold (hex_read (c :: t)). replace (ULONG_MAX <? hex_read (c :: t)) with false by lia. reflexivity.
Qed.
Lemma extension_after e x : extension_ok e -> after_size (e ++ 13 :: x).
Proof. intros [->|(c & r & -> & I & _)]; right; [exists 13, x; split; [reflexivity|unfold no_digit; cbn; tauto]|]. exists c, (r ++ 13 :: x). split; [reflexivity|]. unfold no_digit. cbn in *. tauto. Qed.
Lemma size_chars t e (x : N) : Forall hex_digit t -> extension_ok e -> x = 0 \/ x = 10 -> Forall (fun c => c <> x) (t ++ e ++ [13]).
Proof.
  intros F E X. apply Forall_app. split; [eapply Forall_impl; [|exact F]; unfold hex_digit; intros a Q; lia|]. apply Forall_app. split; [|repeat constructor; lia].
  destruct E as [->|(c & r & -> & I & G)]; [constructor|]. constructor; [cbn in I; lia|]. eapply Forall_impl; [|exact G]. cbn. intros a Q. lia.
Qed.
Lemma zeros_hex t : Forall (fun c => c = 48) t -> Forall hex_digit t /\ hex_read t = 0.
Proof.
  intro F. split; [eapply Forall_impl; [|exact F]; unfold hex_digit; intros a Q; lia|]. unfold hex_read. induction F as [|c t -> F IH]; [reflexivity|]. cbn [fold_left]. change (16 * 0 + hex_digit_value 48) with 0. exact IH.
Qed.
(** The size line. *)
Lemma size_line s t e r c : t <> [] -> Forall hex_digit t -> extension_ok e -> hex_read t <= ULONG_MAX -> holds (t ++ e ++ CRLF ++ r) c s ->
  exists line s', getline s = (Some line, s') /\ strtoul 16 (upto_nul line) = (hex_read t, true) /\ holds r c s'.
Proof.
  intros NE F E L H. replace (t ++ e ++ CRLF ++ r) with ((t ++ e ++ [13]) ++ 10 :: r) in H by (unfold CRLF; rewrite <- !app_assoc; reflexivity).
  destruct (getline_line s _ _ c H (size_chars t e 10 F E (or_intror eq_refl))) as (s' & G & H'). eexists _, s'. split; [exact G|]. split; [|exact H'].
  rewrite upto_nul_plain by (apply Forall_app; split; [apply size_chars; tauto|repeat constructor; discriminate]). rewrite <- !app_assoc. apply size_read; try assumption. apply extension_after, E.
Qed.

(** *** The lines after the last chunk *)
Definition emplaced (lines : list (bytes * bytes)) (hs : headers) : headers := fold_left (fun m e => mm_emplace (fst e) (snd e) m) lines hs.
Lemma line_read e s r c : plain_line e -> holds (write_header e ++ r) c s -> exists s', getline s = (Some (line_text e ++ CRLF), s') /\ holds r c s'.
Proof.
  intros P H. rewrite write_header_text in H. replace ((line_text e ++ CRLF) ++ r) with ((line_text e ++ [13]) ++ 10 :: r) in H by (unfold CRLF; rewrite <- !app_assoc; reflexivity).
  destruct (usual_short e (or_introl P)) as [LO _]. destruct (getline_line s _ _ c H) as (s' & G & H'); [apply Forall_app; split; [apply line_text_lf, LO|repeat constructor; discriminate]|].
  exists s'. split; [|exact H']. rewrite G. f_equal. f_equal. rewrite <- app_assoc. reflexivity.
Qed.
Lemma line_text_plain e : plain_line e -> Forall (fun c => c <> 0) (line_text e) /\ 2 <= blen (line_text e) /\ blen (line_text e) + 2 <= MAX_LENGTH.
Proof.
  intros P. destruct (usual_short e (or_introl P)) as [_ S]. destruct P as (K & V & _). unfold line_text in *. destruct (name_sendable _ K) as [_ K2]. destruct (value_sendable _ (plain_value_chars _ V)) as [_ V2]. rewrite K2, V2 in *.
  split; [|split; [rewrite !blen_app; change (blen (s2b ": ")) with 2; lia|exact S]]. apply Forall_app. split; [destruct K as [_ K]; eapply Forall_impl; [|exact K]; unfold plain_wire; cbn; tauto|].
  apply Forall_app. split; [repeat constructor; discriminate|]. destruct V as [V _]. eapply Forall_impl; [|exact V]. unfold plain_wire. tauto.
Qed.
Lemma plain_add e hs : plain_line e -> add_parsed (line_text e) hs = mm_emplace (fst e) (snd e) hs.
Proof. intro P. pose proof (usual_read e hs (or_introl P)) as U. unfold read_line in U. rewrite U. destruct P as (_ & V & _). apply plain_value_nonempty in V. apply beqb_neq in V. unfold tells. rewrite V. reflexivity. Qed.
Lemma step_trailer e fuel hs s : plain_line e -> trailers (S fuel) hs (line_text e ++ CRLF) s = match getline s with (None, s) => (false, mm_emplace (fst e) (snd e) hs, s) | (Some l, s) => trailers fuel (mm_emplace (fst e) (snd e) hs) l s end.
Proof.
  intro P. destruct (line_text_plain e P) as (N0 & L2 & LM). cbn [trailers]. rewrite upto_nul_plain by (apply Forall_app; split; [exact N0|repeat constructor; discriminate]).
  assert (Q : beqb (line_text e ++ CRLF) CRLF = false). { apply beqb_neq. intro E. apply (f_equal blen) in E. rewrite blen_app in E. change (blen CRLF) with 2 in E. lia. }
  rewrite Q. rewrite blen_app. change (blen CRLF) with 2. replace (MAX_LENGTH <? blen (line_text e) + 2) with false by lia. rewrite crlf_cut, plain_add by exact P. reflexivity.
Qed.
Lemma trailers_whole : forall tr hs s c more, Forall plain_line tr -> holds (write_headers tr ++ more) c s ->
  exists line s1, getline s = (Some line, s1) /\ forall fuel, (List.length (st_data s1) <= fuel)%nat -> exists s', trailers fuel hs line s1 = (true, emplaced tr hs, s') /\ holds more c s'.
Proof.
  induction tr as [|e tr IH]; intros hs s c more F H.
  - change (write_headers [] ++ more) with ([13] ++ 10 :: more) in H. destruct (getline_line s _ _ c H ltac:(repeat constructor; discriminate)) as (s1 & G & H1). exists CRLF, s1. split; [exact G|].
    intros fuel _. exists s1. split; [destruct fuel; reflexivity|exact H1].
  - apply Forall_cons_iff in F as [P F]. replace (write_headers (e :: tr) ++ more) with (write_header e ++ (write_headers tr ++ more)) in H by (unfold write_headers; cbn [flat_map]; rewrite <- !app_assoc; reflexivity).
    destruct (line_read e s _ c P H) as (s1 & G & H1). exists (line_text e ++ CRLF), s1. split; [exact G|]. intros fuel L.
    assert (L1 : (1 <= List.length (st_data s1))%nat) by (destruct H1 as [-> _]; rewrite app_length; unfold write_headers; rewrite app_length; cbn [List.length CRLF]; lia).
    destruct fuel as [|fuel]; [lia|]. rewrite step_trailer by exact P. destruct (IH (mm_emplace (fst e) (snd e) hs) s1 c more F H1) as (line & s2 & G2 & K). rewrite G2. apply K.
    assert (LT : (List.length (st_data s2) < List.length (st_data s1))%nat).
    { pose proof (getline_spec s1 _ c H1) as GS. destruct (cut_line (write_headers tr ++ more)) as [[l r]|] eqn:CL.
      - destruct GS as (s3 & G3 & H3). rewrite G3 in G2. injection G2 as <- <-. destruct H3 as [-> _]. destruct H1 as [-> _]. apply cut_line_app in CL. apply CL.
      - destruct GS as (s3 & G3 & H3). rewrite G3 in G2. injection G2 as _ <-. destruct H3 as [-> _]. cbn [List.length]. lia. }
    lia.
Qed.

(** *** All chunks *)
Lemma crlf_line s r c : holds (CRLF ++ r) c s -> exists s', getline s = (Some CRLF, s') /\ holds r c s'.
Proof. intro H. change (CRLF ++ r) with ([13] ++ 10 :: r) in H. apply (getline_line s _ _ c H). repeat constructor; discriminate. Qed.
Lemma chunks_whole t0 e0 tr : last_ok t0 e0 -> Forall plain_line tr -> forall ks fuel hs acc s c more, Forall chunk_ok ks -> holds (chunked_text ks t0 e0 tr ++ more) c s -> (List.length ks < fuel)%nat ->
  exists s', chunks fuel hs acc s = (true, acc ++ data_of ks, emplaced tr hs, s') /\ holds more c s'.
Proof.
  intros (NE0 & Z0 & X0) FT. destruct (zeros_hex t0 Z0) as [F0 V0]. induction ks as [|k ks IH]; intros fuel hs acc s c more F H L; (destruct fuel as [|fuel]; [cbn in L; lia|]); cbn [chunks].
  - unfold chunked_text in H. cbn [flat_map app] in H. rewrite <- !app_assoc in H.
    destruct (size_line s t0 e0 (write_headers tr ++ more) c NE0 F0 X0 ltac:(rewrite V0; vm_compute; discriminate) H) as (line & s1 & G & S & H1). rewrite G, S, V0. change (negb true || (0 =? ULONG_MAX)) with false. change (0 =? 0) with true. cbn iota.
    destruct (trailers_whole tr hs s1 c more FT H1) as (l2 & s2 & G2 & K). rewrite G2. destruct (K (List.length (st_data s2)) (le_n _)) as (s3 & -> & H3). exists s3. cbn [data_of flat_map]. rewrite app_nil_r. split; [reflexivity|exact H3].
  - apply Forall_cons_iff in F as [(A1 & A2 & A3 & A4 & A5) F]. 
    replace (chunked_text (k :: ks) t0 e0 tr ++ more) with (ck_size k ++ ck_extension k ++ CRLF ++ (ck_data k ++ CRLF ++ (chunked_text ks t0 e0 tr ++ more))) in H
      by (unfold chunked_text; cbn [flat_map]; unfold chunk_text; rewrite <- !app_assoc; reflexivity).
    destruct (size_line s (ck_size k) (ck_extension k) _ c A1 A2 A3 ltac:(rewrite A4; unfold ULONG_MAX; lia) H) as (line & s1 & G & S & H1). rewrite G, S, A4.
    replace (negb true || (blen (ck_data k) =? ULONG_MAX)) with false by (unfold ULONG_MAX; lia). replace (blen (ck_data k) =? 0) with false by lia. cbn iota.
    destruct (with_length_spec (blen (ck_data k)) acc s1 _ c H1) as (s2 & -> & H2). rewrite firstn_app_len, skipn_app_len in *. replace (blen (ck_data k) <=? blen (ck_data k ++ CRLF ++ chunked_text ks t0 e0 tr ++ more)) with true by (rewrite blen_app; lia). cbn [negb].
    destruct (crlf_line s2 _ c H2) as (s3 & -> & H3). change (beqb (upto_nul CRLF) CRLF) with true. cbn iota.
    destruct (IH fuel hs (acc ++ ck_data k) s3 c more F H3 ltac:(cbn [List.length] in L; lia)) as (s4 & -> & H4). exists s4. cbn [data_of flat_map]. rewrite <- app_assoc. split; [reflexivity|exact H4].
Qed.
Lemma chunks_count t0 e0 tr ks more : Forall chunk_ok ks -> (List.length ks <= List.length (chunked_text ks t0 e0 tr ++ more))%nat.
Proof.
  intro F. unfold chunked_text. rewrite !app_length. enough (List.length ks <= List.length (flat_map chunk_text ks))%nat by lia. induction F as [|k ks (A & _) F IH]; [cbn; lia|]. cbn [flat_map List.length]. rewrite app_length. unfold chunk_text at 1. rewrite app_length. destruct (ck_size k); [contradiction|]. cbn [List.length]. lia.
Qed.
Lemma content_whole hs s c ks t0 e0 tr more v : holds (chunked_text ks t0 e0 tr ++ more) c s -> Forall chunk_ok ks -> last_ok t0 e0 -> Forall plain_line tr ->
  values_ci (s2b "Content-Encoding") hs = [] -> values_ci (s2b "Transfer-Encoding") hs = [v] -> plain_value v -> same_name v (s2b "chunked") ->
  exists s', read_content hs s = (Content (data_of ks) (emplaced tr hs), s') /\ holds more c s'.
Proof.
  intros H F L0 FT VE VT PV SN. unfold read_content. rewrite !header_value_ci, VE, VT. change (beqb [] (s2b "gzip") || beqb [] (s2b "deflate") || contains (s2b "br") []) with false.
  destruct (value_sendable _ (plain_value_chars _ PV)) as [_ ->]. cbv zeta. cbn iota. unfold same_ignoring_case. rewrite SN, beqb_refl. unfold chunked.
  destruct (chunks_whole t0 e0 tr L0 FT ks (S (List.length (st_data s))) hs [] s c more F H) as (s' & -> & H').
  { pose proof (chunks_count t0 e0 tr ks more F). destruct H as [-> _]. lia. }
  exists s'. split; [reflexivity|exact H'].
Qed.

(** *** Cut off *)
Lemma chunks_empty fuel hs acc s c : holds [] c s -> exists acc' hs' s', chunks fuel hs acc s = (false, acc', hs', s') /\ holds [] c s'.
Proof.
  intro H. destruct fuel as [|fuel]; [eexists _, _, s; split; [reflexivity|exact H]|]. cbn [chunks]. pose proof (getline_spec s [] c H) as G. cbn [cut_line] in G. destruct G as (s' & -> & H'). rewrite Bool.andb_false_r. eexists _, _, s'. split; [reflexivity|exact H'].
Qed.
(** A size line that is cut. *)
Lemma size_cut fuel hs acc s t e p z c : Forall hex_digit t -> extension_ok e -> t ++ e ++ CRLF = p ++ z -> z <> [] -> holds p c s -> exists acc' hs' s', chunks (S fuel) hs acc s = (false, acc', hs', s') /\ holds [] c s'.
Proof.
  intros F X E N H. cbn [chunks]. replace (t ++ e ++ CRLF) with ((t ++ e ++ [13]) ++ [10]) in E by (unfold CRLF; rewrite <- !app_assoc; reflexivity).
  destruct (getline_cut s _ p z c E N (size_chars t e 10 F X (or_intror eq_refl)) H) as (s1 & G & H1 & _). rewrite G. destruct (c && negb (beqb p [])); [|eexists _, _, s1; split; [reflexivity|exact H1]].
  destruct (strtoul 16 (upto_nul p)) as [len number]. destruct (negb number || (len =? ULONG_MAX)); [eexists _, _, s1; split; [reflexivity|exact H1]|]. destruct (len =? 0) eqn:L0.
  - pose proof (getline_spec s1 [] c H1) as G2. cbn [cut_line] in G2. destruct G2 as (s2 & -> & H2). rewrite Bool.andb_false_r. eexists _, _, s2. split; [reflexivity|exact H2].
  - destruct (with_length_spec len acc s1 [] c H1) as (s2 & -> & H2). replace (len <=? blen []) with false by (change (blen []) with 0; lia). cbn [negb]. rewrite skipn_nil in H2. eexists _, _, s2. split; [reflexivity|exact H2].
Qed.
Lemma no_lf_no_line l : Forall (fun x => x <> 10) l -> beqb (upto_nul l) CRLF = false.
Proof. intro F. apply beqb_neq. intro E. pose proof (upto_nul_forall _ _ F) as G. rewrite E in G. apply Forall_inv_tail, Forall_inv in G. apply G. reflexivity. Qed.
Lemma trailers_cut : forall tr hs s p z c, Forall plain_line tr -> write_headers tr = p ++ z -> z <> [] -> holds p c s ->
  (exists s1, getline s = (None, s1) /\ holds [] c s1) \/
  exists line s1, getline s = (Some line, s1) /\ forall fuel, (List.length (st_data s1) <= fuel)%nat -> exists hs' s', trailers fuel hs line s1 = (false, hs', s') /\ holds [] c s'.
Proof.
  assert (CUT : forall hs s l p z c, Forall (fun x => x <> 10) l -> l ++ [10] = p ++ z -> z <> [] -> holds p c s ->
    (exists s1, getline s = (None, s1) /\ holds [] c s1) \/ exists line s1, getline s = (Some line, s1) /\ forall fuel, (List.length (st_data s1) <= fuel)%nat -> exists hs' s', trailers fuel hs line s1 = (false, hs', s') /\ holds [] c s').
  { intros hs s l p z c F E N H. destruct (getline_cut s l p z c E N F H) as (s1 & G & H1 & FP). rewrite G. destruct (c && negb (beqb p [])); [right|left; exists s1; split; [reflexivity|exact H1]].
    exists p, s1. split; [reflexivity|]. intros fuel _. destruct fuel as [|fuel]; cbn [trailers]; rewrite (no_lf_no_line p FP); (destruct (MAX_LENGTH <? blen p); [eexists _, s1; split; [reflexivity|exact H1]|]).
    - eexists _, s1; split; [reflexivity|exact H1].
    - pose proof (getline_spec s1 [] c H1) as G2. cbn [cut_line] in G2. destruct G2 as (s2 & -> & H2). rewrite Bool.andb_false_r. eexists _, s2. split; [reflexivity|exact H2]. }
  induction tr as [|e tr IH]; intros hs s p z c F E N H.
  - apply (CUT hs s [13] p z c); [repeat constructor; discriminate|exact E|exact N|exact H].
  - apply Forall_cons_iff in F as [P F]. replace (write_headers (e :: tr)) with (write_header e ++ write_headers tr) in E by (unfold write_headers; cbn [flat_map]; rewrite <- !app_assoc; reflexivity).
    apply prefix_of_app in E as [(y & NY & E)|(q & -> & E)].
    + rewrite write_header_text in E. apply (CUT hs s (line_text e ++ [13]) p y c); [|rewrite <- app_assoc; exact E|exact NY|exact H].
      apply Forall_app. split; [apply line_text_lf; apply (usual_short e (or_introl P))|repeat constructor; discriminate].
    + destruct (line_read e s q c P H) as (s1 & G & H1). right. exists (line_text e ++ CRLF), s1. split; [exact G|]. intros fuel L.
      destruct (IH (mm_emplace (fst e) (snd e) hs) s1 q z c F E N H1) as [(s2 & G2 & H2)|(line & s2 & G2 & K)].
      * destruct fuel as [|fuel].
        { destruct (line_text_plain e P) as (N0 & L2 & LM). assert (q = []) as -> by (destruct H1 as [D _]; rewrite D in L; destruct q; [reflexivity|cbn in L; lia]). cbn [trailers].
          assert (Q : beqb (upto_nul (line_text e ++ CRLF)) CRLF = false). { rewrite upto_nul_plain by (apply Forall_app; split; [exact N0|repeat constructor; discriminate]). apply beqb_neq. intro Q. apply (f_equal blen) in Q. rewrite blen_app in Q. change (blen CRLF) with 2 in Q. lia. }
          rewrite Q. destruct (MAX_LENGTH <? _); (eexists _, s1; split; [reflexivity|exact H1]). }
        rewrite step_trailer by exact P. rewrite G2. eexists _, s2. split; [reflexivity|exact H2].
      * destruct fuel as [|fuel].
        { assert (q = []) as -> by (destruct H1 as [D _]; rewrite D in L; destruct q; [reflexivity|cbn in L; lia]). pose proof (getline_spec s1 [] c H1) as G3. cbn [cut_line] in G3. destruct G3 as (s3 & G3 & _). rewrite Bool.andb_false_r in G3. congruence. }
        rewrite step_trailer by exact P. rewrite G2. apply K.
        assert (LT : (List.length (st_data s2) < List.length (st_data s1))%nat).
        { pose proof (getline_spec s1 _ c H1) as GS. destruct (cut_line q) as [[l r]|] eqn:CL.
          - destruct GS as (s3 & G3 & H3). rewrite G3 in G2. injection G2 as <- <-. destruct H3 as [-> _]. destruct H1 as [-> _]. apply cut_line_app in CL. apply CL.
          - destruct GS as (s3 & G3 & H3). rewrite G3 in G2. destruct H3 as [D3 _]. assert (s3 = s2) as -> by congruence. rewrite D3. cbn [List.length]. destruct H1 as [-> _]. destruct q; [|cbn; lia]. rewrite Bool.andb_false_r in G2. discriminate. }
        lia.
Qed.
Lemma chunks_cut t0 e0 tr : last_ok t0 e0 -> Forall plain_line tr -> forall ks fuel hs acc s p z c, Forall chunk_ok ks -> chunked_text ks t0 e0 tr = p ++ z -> z <> [] -> holds p c s -> (List.length p < fuel)%nat ->
  exists acc' hs' s', chunks fuel hs acc s = (false, acc', hs', s') /\ holds [] c s'.
Proof.
  intros (NE0 & Z0 & X0) FT. destruct (zeros_hex t0 Z0) as [F0 V0]. induction ks as [|k ks IH]; intros fuel hs acc s p z c F E N H L; (destruct fuel as [|fuel]; [lia|]).
  - unfold chunked_text in E. cbn [flat_map app] in E. replace (t0 ++ e0 ++ CRLF ++ write_headers tr) with ((t0 ++ e0 ++ CRLF) ++ write_headers tr) in E by (rewrite <- !app_assoc; reflexivity).
    apply prefix_of_app in E as [(y & NY & E)|(q & -> & E)]; [exact (size_cut fuel hs acc s t0 e0 p y c F0 X0 E NY H)|]. rewrite <- !app_assoc in H. cbn [chunks].
    destruct (size_line s t0 e0 q c NE0 F0 X0 ltac:(rewrite V0; vm_compute; discriminate) H) as (line & s1 & G & S & H1). rewrite G, S, V0. change (negb true || (0 =? ULONG_MAX)) with false. change (0 =? 0) with true. cbn iota.
    destruct (trailers_cut tr hs s1 q z c FT E N H1) as [(s2 & -> & H2)|(l2 & s2 & -> & K)]; [eexists _, _, s2; split; [reflexivity|exact H2]|].
    destruct (K (List.length (st_data s2)) (le_n _)) as (hs' & s3 & -> & H3). eexists _, _, s3. split; [reflexivity|exact H3].
  - apply Forall_cons_iff in F as [(A1 & A2 & A3 & A4 & A5) F].
    replace (chunked_text (k :: ks) t0 e0 tr) with ((ck_size k ++ ck_extension k ++ CRLF) ++ (ck_data k ++ (CRLF ++ chunked_text ks t0 e0 tr))) in E
      by (unfold chunked_text; cbn [flat_map]; unfold chunk_text; rewrite <- !app_assoc; reflexivity).
    apply prefix_of_app in E as [(y & NY & E)|(q & -> & E)]; [exact (size_cut fuel hs acc s _ _ p y c A2 A3 E NY H)|]. rewrite <- !app_assoc in H. cbn [chunks].
    destruct (size_line s (ck_size k) (ck_extension k) q c A1 A2 A3 ltac:(rewrite A4; unfold ULONG_MAX; lia) H) as (line & s1 & G & S & H1). rewrite G, S, A4.
    replace (negb true || (blen (ck_data k) =? ULONG_MAX)) with false by (unfold ULONG_MAX; lia). replace (blen (ck_data k) =? 0) with false by lia. cbn iota.
    destruct (with_length_spec (blen (ck_data k)) acc s1 q c H1) as (s2 & -> & H2).
    apply prefix_of_app in E as [(y & NY & E)|(u & -> & E)].
    + assert (LQ : blen q < blen (ck_data k)) by (rewrite E, blen_app; destruct y; [contradiction|unfold blen; cbn [List.length]; lia]). replace (blen (ck_data k) <=? blen q) with false by lia. cbn [negb].
      rewrite skipn_all2 in H2 by (clear - LQ; unfold blen in *; lia). eexists _, _, s2. split; [reflexivity|exact H2].
    + rewrite firstn_app_len, skipn_app_len in *. replace (blen (ck_data k) <=? blen (ck_data k ++ u)) with true by (rewrite blen_app; lia). cbn [negb].
      apply prefix_of_app in E as [(y & NY & E)|(v & -> & E)].
      * destruct (getline_cut s2 [13] u y c E NY ltac:(repeat constructor; discriminate) H2) as (s3 & G3 & H3 & F3). rewrite G3. destruct (c && negb (beqb u [])); [rewrite (no_lf_no_line u F3)|]; (eexists _, _, s3; split; [reflexivity|exact H3]).
      * destruct (crlf_line s2 v c H2) as (s3 & -> & H3). change (beqb (upto_nul CRLF) CRLF) with true. cbn iota. apply (IH fuel hs _ s3 v z c F E N H3).
        clear - L. repeat rewrite app_length in L. change (List.length CRLF) with 2%nat in L. lia.
Qed.
Lemma content_cut hs s c ks t0 e0 tr p z v : holds p c s -> chunked_text ks t0 e0 tr = p ++ z -> z <> [] -> Forall chunk_ok ks -> last_ok t0 e0 -> Forall plain_line tr ->
  values_ci (s2b "Content-Encoding") hs = [] -> values_ci (s2b "Transfer-Encoding") hs = [v] -> plain_value v -> same_name v (s2b "chunked") ->
  exists hs' s', read_content hs s = (Refused 400 hs', s') /\ holds [] c s'.
Proof.
  intros H E N F L0 FT VE VT PV SN. unfold read_content. rewrite !header_value_ci, VE, VT. change (beqb [] (s2b "gzip") || beqb [] (s2b "deflate") || contains (s2b "br") []) with false.
  destruct (value_sendable _ (plain_value_chars _ PV)) as [_ ->]. cbv zeta. cbn iota. unfold same_ignoring_case. rewrite SN, beqb_refl. unfold chunked.
  destruct (chunks_cut t0 e0 tr L0 FT ks (S (List.length (st_data s))) hs [] s p z c F E N H) as (acc' & hs' & s' & -> & H'); [destruct H as [-> _]; lia|].
  exists hs', s'. split; [reflexivity|exact H'].
Qed.
