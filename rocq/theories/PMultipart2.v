(** Proofs: a content in parts is taken apart as it was put together, however it is cut after
    its first line. *)
From Coq Require Import ZifyBool ZifyNat ZifyN.
From Verif Require Import Base PBase MSerialize MHttp SHttp PHttp MTls MWire MRange SWire PWire PWire2 PWire3 MMultipart SMultipart PMultipart PHeadLines.
Open Scope N_scope.

(** ** The parser in the middle of a content *)
Section Form.
Variable b : bytes.
Hypothesis Hb : Forall boundary_char b.
Variable all : list field.
Hypothesis Hall : Forall (part_ok b) all.
Hypothesis Hcount : (List.length all <= FILE_MAX_COUNT)%nat.

Definition taken (x : field) : part := mk_part (head_name (fst x)) (head_type (fst x)) (snd x).
Definition Head (x : field) (r : list field) (f : part) (T : bytes) : Prop :=
  exists came rest, fst x = came ++ rest /\ f = mk_part (head_name came) (head_type came) [] /\ T = lines_text rest ++ CRLF ++ snd x ++ between b ++ tail_text b r.
Definition suffix_end (T : bytes) : Prop := T = CRLF \/ T = [10] \/ T = [].
(** [T]: what the buffer holds and what is still to come. *)
Definition Good (p : parser) (T : bytes) : Prop :=
  match ps_state p with
  | PBoundary => False
  | PEntry => (ps_valid p = true /\ ps_files p = map taken all /\ T = []) \/
      exists done x r, all = done ++ x :: r /\ ps_files p = map taken done /\ T = part_text x ++ between b ++ tail_text b r
  | PHeaders => exists done x r, all = done ++ x :: r /\ ps_files p = map taken done /\
      Head x r (ps_file p) T
  | PBody => exists done x r c1 c2, all = done ++ x :: r /\ ps_files p = map taken done ++ [mk_part (head_name (fst x)) (head_type (fst x)) c1] /\ snd x = c1 ++ c2 /\ clean (between b) c2 /\ T = c2 ++ between b ++ tail_text b r
  | PAfter => (ps_valid p = true /\ ps_files p = map taken all /\ suffix_end T) \/
      exists done r, all = done ++ r /\ ps_files p = map taken done /\ T = tail_text b r
  end.
Definition Final (p : parser) : Prop := ps_valid p = true /\ ps_files p = map taken all.

Lemma between_head : forall j, (1 <= j < List.length (between b))%nat -> nth j (between b) 0 <> nth 0 (between b) 0.
Proof.
  intros j J. unfold between in *. cbn [app s2b] in *. destruct j as [|[|[|[|j]]]]; cbn; try lia; try discriminate. cbn in J.
  rewrite Forall_forall in Hb. specialize (Hb (nth j b 0) ltac:(apply nth_In; cbn in J; lia)). unfold boundary_char in Hb. lia.
Qed.
Lemma add_last c : forall l x, add_content c (l ++ [x]) = l ++ [mk_part (pt_name x) (pt_type x) (pt_content x ++ c)].
Proof. induction l as [|y l IH]; intro x; [reflexivity|]. cbn [app add_content]. destruct (l ++ [x]) eqn:E; [destruct l; discriminate E|]. rewrite <- E, IH. reflexivity. Qed.
Lemma all_part done x r : all = done ++ x :: r -> part_ok b x /\ (List.length done < FILE_MAX_COUNT)%nat.
Proof. intro E. split; [|rewrite E, app_length in Hcount; cbn [List.length] in Hcount; lia]. rewrite E in Hall. apply Forall_app in Hall as [_ H]. inversion H; assumption. Qed.
Definition weight (p : parser) : nat := (2 * List.length (ps_buf p) + match ps_state p with PEntry => 1 | _ => 0 end)%nat.

(** The lines of a head, as far as they came. *)
Definition Res (x : field) (r : list field) (n : nat) (buf : bytes) (f : part) (rest : bytes) : Prop :=
  N.of_nat (place_of CRLF buf) <= MAX_LENGTH /\
  ((exists buf', header_lines n buf f = Some (true, buf', mk_part (head_name (fst x)) (head_type (fst x)) []) /\ buf' ++ rest = snd x ++ between b ++ tail_text b r /\ (List.length buf' < List.length buf)%nat) \/
   (exists buf' f', header_lines n buf f = Some (false, buf', f') /\ rest <> [] /\ Head x r f' (buf' ++ rest))).
Lemma empty_step x r buf rest n : (List.length buf < n)%nat -> buf ++ rest = CRLF ++ snd x ++ between b ++ tail_text b r -> Res x r n buf (mk_part (head_name (fst x)) (head_type (fst x)) []) rest.
Proof.
  intros L E. destruct n as [|n]; [lia|]. destruct (Nat.le_gt_cases 2 (List.length buf)) as [G|G].
  - destruct (reach CRLF _ buf rest E G) as (more & -> & M). split; [change (place_of CRLF (CRLF ++ more)) with O; vm_compute; discriminate|]. left. exists more. cbn [header_lines].
    change (place_of CRLF (CRLF ++ more)) with O. cbn [List.length app CRLF Nat.ltb Nat.leb Nat.eqb skipn]. split; [reflexivity|]. split; [exact M|]. cbn. lia.
  - assert (NR : rest <> []) by (intros ->; rewrite app_nil_r in E; subst buf; cbn in G; lia).
    assert (K : place_of CRLF buf = List.length buf) by (apply (place_none CRLF [] (snd x ++ between b ++ tail_text b r) buf rest); [intros i I; cbn in I; lia|exact E|cbn; lia]).
    unfold Res. rewrite K. split; [unfold MAX_LENGTH; lia|]. right. exists buf, (mk_part (head_name (fst x)) (head_type (fst x)) []). cbn [header_lines]. rewrite K, Nat.ltb_irrefl. split; [reflexivity|]. split; [exact NR|]. exists (fst x), []. split; [symmetry; apply app_nil_r|]. split; [reflexivity|exact E].
Qed.
Lemma line_step x r line f f1 T1 buf rest n : clean CRLF line -> line <> [] -> N.of_nat (List.length line) <= 8100 -> part_header line f = Some f1 -> buf ++ rest = line ++ CRLF ++ T1 -> Head x r f (line ++ CRLF ++ T1) ->
  (forall more m, (List.length more < m)%nat -> more ++ rest = T1 -> Res x r m more f1 rest) -> (List.length buf < n)%nat -> Res x r n buf f rest.
Proof.
  intros CL NL HL FH E2 HD NEXT L. destruct n as [|n]; [lia|]. destruct (Nat.le_gt_cases (List.length line + 2) (List.length buf)) as [G|G].
  - assert (E3 : buf ++ rest = (line ++ CRLF) ++ T1) by (rewrite E2, <- app_assoc; reflexivity).
    destruct (reach (line ++ CRLF) _ buf rest E3 ltac:(rewrite app_length; exact G)) as (more & EB & M). rewrite <- app_assoc in EB.
    assert (K : place_of CRLF buf = List.length line) by (rewrite EB; apply place_first; exact CL).
    assert (LB : List.length buf = (List.length line + 2 + List.length more)%nat) by (rewrite EB, !app_length; change (List.length CRLF) with 2%nat; lia).
    destruct (NEXT more n ltac:(lia) M) as [_ O]. unfold Res. split; [rewrite K; unfold MAX_LENGTH; clear - HL; lia|]. cbn [header_lines]. rewrite K. replace (Nat.ltb (List.length line) (List.length buf)) with true by (symmetry; apply Nat.ltb_lt; lia).
    replace (Nat.eqb (List.length line) 0) with false by (symmetry; apply Nat.eqb_neq; destruct line; [congruence|discriminate]).
    replace (firstn (List.length line) buf) with line by (rewrite EB, firstn_app, firstn_all, Nat.sub_diag; cbn [firstn]; rewrite app_nil_r; reflexivity).
    replace (skipn (List.length line + 2) buf) with more.
    2: { rewrite EB, <- skip_skip, skipn_app, skipn_all, Nat.sub_diag. reflexivity. }
    rewrite FH. destruct O as [(buf' & O1 & O2 & O3)|O]; [left; exists buf'; split; [exact O1|]; split; [exact O2|lia]|right; exact O].
  - assert (NR : rest <> []) by (intros ->; rewrite app_nil_r in E2; rewrite E2, !app_length in G; change (List.length CRLF) with 2%nat in G; lia).
    assert (K : place_of CRLF buf = List.length buf) by (apply (place_none CRLF line T1 buf rest); [exact CL|exact E2|change (List.length CRLF) with 2%nat; clear - G; lia]).
    unfold Res. rewrite K. split; [unfold MAX_LENGTH; clear - HL G; lia|]. right. exists buf, f. cbn [header_lines]. rewrite K, Nat.ltb_irrefl. split; [reflexivity|]. split; [exact NR|]. rewrite E2. exact HD.
Qed.
Lemma lines_step x r : part_ok b x -> forall rest0 came buf rest n, fst x = came ++ rest0 -> (List.length buf < n)%nat -> buf ++ rest = lines_text rest0 ++ CRLF ++ snd x ++ between b ++ tail_text b r -> Res x r n buf (mk_part (head_name came) (head_type came) []) rest.
Proof.
  intros [HX _]. induction rest0 as [|h rest0 IH]; intros came buf rest n E L T.
  - rewrite app_nil_r in E. subst came. apply empty_step; assumption.
  - assert (HH : head_line_ok h) by (rewrite E in HX; apply Forall_app in HX as [_ HX]; inversion HX; assumption). destruct (head_line_shape h HH) as (S1 & S2 & S3).
    assert (E2 : fst x = (came ++ [h]) ++ rest0) by (rewrite <- app_assoc; exact E).
    assert (T2 : buf ++ rest = head_line_text h ++ CRLF ++ (lines_text rest0 ++ CRLF ++ snd x ++ between b ++ tail_text b r)) by (rewrite T; unfold lines_text; cbn [flat_map]; rewrite <- !app_assoc; reflexivity).
    apply (line_step x r (head_line_text h) (mk_part (head_name came) (head_type came) []) (mk_part (head_name (came ++ [h])) (head_type (came ++ [h])) []) (lines_text rest0 ++ CRLF ++ snd x ++ between b ++ tail_text b r)).
    + exact S2.
    + exact S1.
    + exact S3.
    + rewrite head_line_read by exact HH. unfold head_name, head_type. rewrite !fold_left_app. reflexivity.
    + exact T2.
    + exists came, (h :: rest0). split; [exact E|]. split; [reflexivity|]. rewrite <- T2. exact T.
    + intros more m Lm Em. apply IH; assumption.
    + exact L.
Qed.

Lemma tail_long r : (2 <= List.length (tail_text b r))%nat.
Proof. destruct r; cbn; lia. Qed.

Lemma loop_good : forall n p rest, (weight p < n)%nat -> Good p (ps_buf p ++ rest) ->
  exists p', parse_loop n b p = (p', true) /\ Good p' (ps_buf p' ++ rest) /\ (rest = [] -> Final p').
Proof.
  induction n as [|n IH]; intros [st va buf f fs] rest W G; [lia|]. cbn [parse_loop ps_buf ps_state ps_valid ps_file ps_files] in *. unfold Good in G. cbn [ps_buf ps_state ps_valid ps_file ps_files] in G.
  destruct buf as [|c0 buf0].
  { eexists. split; [reflexivity|]. split; [unfold Good; cbn [ps_buf ps_state ps_valid ps_file ps_files]; exact G|]. intros ->. cbn [app] in G. unfold Final. cbn [ps_valid ps_files]. destruct st.
    - destruct G.
    - destruct G as [(A & B & _)|(done & x & r & _ & _ & E)]; [split; assumption|]. symmetry in E. apply app_eq_nil in E as [_ E]. discriminate E.
    - destruct G as (done & x & r & _ & _ & (d0 & r0 & _ & _ & E)). symmetry in E. apply app_eq_nil in E as [_ E]. discriminate E.
    - destruct G as (done & x & r & c1 & c2 & _ & _ & _ & _ & E). destruct c2; discriminate E.
    - destruct G as [(A & B & _)|(done & r & _ & _ & E)]; [split; assumption|]. destruct r; discriminate E. }
  remember (c0 :: buf0) as buf eqn:Bf. assert (NB : buf <> []) by (rewrite Bf; discriminate). clear c0 buf0 Bf.
  destruct st.
  - destruct G.
  - (* a new part *)
    destruct G as [(_ & _ & E)|(done & x & r & A & FS & E)]; [destruct buf; [congruence|discriminate E]|].
    apply (IH (mk_parser PHeaders va buf no_part fs) rest); [unfold weight in *; cbn [ps_buf ps_state] in *; lia|]. unfold Good. cbn [ps_buf ps_state ps_valid ps_file ps_files]. exists done, x, r. repeat split; try assumption. exists [], (fst x). split; [reflexivity|]. split; [reflexivity|]. rewrite E. unfold part_text. rewrite <- !app_assoc. reflexivity.
  - (* its head *)
    destruct G as (done & x & r & A & FS & E). destruct (all_part done x r A) as [HX HC].
    destruct E as (came & rest0 & EF & -> & E). destruct (lines_step x r HX rest0 came buf rest (S (List.length buf)) EF ltac:(lia) E) as [M H]. replace (MAX_LENGTH <? N.of_nat (place_of CRLF buf)) with false by lia.
    destruct H as [(buf' & -> & E' & L')|(buf' & f' & -> & NR & E')].
    + replace (Nat.eqb (List.length fs) FILE_MAX_COUNT) with false by (symmetry; apply Nat.eqb_neq; rewrite FS, map_length; lia).
      apply (IH (mk_parser PBody va buf' (mk_part (head_name (fst x)) (head_type (fst x)) []) (fs ++ [mk_part (head_name (fst x)) (head_type (fst x)) []])) rest); [unfold weight in *; cbn [ps_buf ps_state] in *; lia|].
      unfold Good. cbn [ps_buf ps_state ps_valid ps_file ps_files]. exists done, x, r, [], (snd x). split; [exact A|]. split; [rewrite FS; reflexivity|]. split; [reflexivity|]. split; [|exact E'].
      apply clean_of; [exact between_head|]. exact (proj2 HX).
    + eexists. split; [reflexivity|]. split; [|intro; congruence]. unfold Good. cbn [ps_buf ps_state ps_valid ps_file ps_files]. exists done, x, r. repeat split; assumption.
  - (* its content *)
    destruct G as (done & x & r & c1 & c2 & A & FS & SX & CL & E). change (CRLF ++ s2b "--" ++ b) with (between b). pose proof (tail_long r) as TL.
    destruct (Nat.ltb_spec (List.length buf) (List.length (between b))) as [SH|LO].
    + eexists. split; [reflexivity|]. split; [unfold Good; cbn [ps_buf ps_state ps_valid ps_file ps_files]; exists done, x, r, c1, c2; repeat split; assumption|].
      intros ->. rewrite app_nil_r in E. rewrite E, !app_length in SH. lia.
    + destruct (Nat.le_gt_cases (List.length c2 + List.length (between b)) (List.length buf)) as [FULL|CUT].
      * assert (E2 : buf ++ rest = (c2 ++ between b) ++ tail_text b r) by (rewrite E, <- app_assoc; reflexivity).
        destruct (reach _ _ _ _ E2 ltac:(rewrite app_length; exact FULL)) as (more & EB & M). rewrite <- app_assoc in EB.
        assert (K : place_of (between b) buf = List.length c2) by (rewrite EB; apply place_first; exact CL). rewrite K.
        assert (BL : (4 <= List.length (between b))%nat) by (unfold between; rewrite !app_length; cbn; lia).
        replace (Nat.ltb (List.length c2) (List.length buf)) with true by (symmetry; apply Nat.ltb_lt; lia).
        replace (firstn (List.length c2) buf) with c2 by (rewrite EB, firstn_app, firstn_all, Nat.sub_diag; cbn [firstn]; rewrite app_nil_r; reflexivity).
        replace (skipn (List.length c2 + List.length (between b)) buf) with more.
        2: { rewrite EB, <- skip_skip, (skipn_app (List.length c2)), skipn_all, Nat.sub_diag. cbn [skipn app]. rewrite skipn_app, skipn_all, Nat.sub_diag. reflexivity. }
        apply (IH (mk_parser PAfter va more f (add_content c2 fs)) rest); [unfold weight in *; cbn [ps_buf ps_state] in *; rewrite EB, !app_length in W; lia|].
        unfold Good. cbn [ps_buf ps_state ps_valid ps_file ps_files]. right. exists (done ++ [x]), r. split; [rewrite <- app_assoc; exact A|]. split; [|exact M].
        rewrite FS, add_last, map_app. cbn [pt_name pt_type pt_content map]. unfold taken. rewrite SX. reflexivity.
      * assert (K : place_of (between b) buf = List.length buf) by (apply (place_none (between b) c2 (tail_text b r) buf rest); assumption). rewrite K, Nat.ltb_irrefl.
        set (len := (List.length buf - List.length (between b))%nat). assert (LC : (len <= List.length c2)%nat) by (unfold len; lia).
        eexists. split; [reflexivity|]. split.
        -- unfold Good. cbn [ps_buf ps_state ps_valid ps_file ps_files]. exists done, x, r, (c1 ++ firstn len buf), (skipn len c2).
           assert (FB : firstn len buf = firstn len c2).
           { pose proof (f_equal (firstn len) E) as Q. rewrite !firstn_app in Q. replace (len - List.length buf)%nat with O in Q by (unfold len; lia). replace (len - List.length c2)%nat with O in Q by lia. cbn [firstn] in Q. rewrite !app_nil_r in Q. exact Q. }
           split; [exact A|]. split; [rewrite FS, add_last; reflexivity|]. split; [rewrite SX, <- app_assoc, FB, firstn_skipn; reflexivity|]. split; [apply clean_skip; exact CL|].
           pose proof (f_equal (skipn len) E) as Q. rewrite !skipn_app in Q. replace (len - List.length buf)%nat with O in Q by (unfold len; lia). replace (len - List.length c2)%nat with O in Q by lia. cbn [skipn] in Q. exact Q.
        -- intros ->. rewrite app_nil_r in E. rewrite E, !app_length in CUT. lia.
  - (* after it *)
    destruct G as [(V & FS & E)|(done & r & A & FS & E)].
    + destruct (Nat.ltb_spec (List.length buf) 2) as [SH|LO]; [eexists; split; [reflexivity|]; split; [unfold Good; cbn [ps_buf ps_state ps_valid ps_file ps_files]; left; repeat split; assumption|]; intros _; split; assumption|].
      assert (BC : buf = CRLF /\ rest = []).
      { destruct E as [E|[E|E]]; pose proof (f_equal (@List.length N) E) as EL; rewrite app_length in EL; cbn in EL; try lia.
        destruct rest; [rewrite app_nil_r in E; split; [exact E|reflexivity]|cbn in EL; lia]. }
      destruct BC as [-> ->]. change (has_prefix CRLF CRLF) with true. cbn iota.
      apply (IH (mk_parser PEntry va (skipn 2 CRLF) f fs) []); [unfold weight in *; cbn [ps_buf ps_state] in *; cbn in *; lia|]. unfold Good. cbn [ps_buf ps_state ps_valid ps_file ps_files]. left. repeat split; assumption.
    + destruct (Nat.ltb_spec (List.length buf) 2) as [SH|LO].
      { eexists. split; [reflexivity|]. split; [unfold Good; cbn [ps_buf ps_state ps_valid ps_file ps_files]; right; exists done, r; repeat split; assumption|].
        intros ->. rewrite app_nil_r in E. pose proof (tail_long r) as TL. rewrite <- E in TL. lia. }
      destruct r as [|x r].
      * cbn [tail_text] in E. destruct (reach (s2b "--") _ _ _ E LO) as (more & -> & M). change (has_prefix CRLF (s2b "--" ++ more)) with false. cbn iota. rewrite prefix_app.
        rewrite app_nil_r in A. subst done. eexists. split; [reflexivity|]. split; [|intros _; split; [reflexivity|exact FS]].
        unfold Good. cbn [ps_buf ps_state ps_valid ps_file ps_files app]. left. split; [reflexivity|]. split; [exact FS|]. unfold suffix_end. clear - M.
        destruct more as [|m1 [|m2 [|m3 more]]]; cbn [app] in M; try discriminate M; [left; exact M|right; left|right; right]; injection M; intros; subst; reflexivity || (destruct rest; [reflexivity|discriminate]).
      * cbn [tail_text] in E. destruct (reach [13; 10] _ _ _ E LO) as (more & -> & M). change [13; 10] with CRLF. rewrite prefix_app. change (skipn 2 (CRLF ++ more)) with more.
        apply (IH (mk_parser PEntry va more f fs) rest); [unfold weight in *; cbn [ps_buf ps_state app CRLF List.length] in *; lia|].
        unfold Good. cbn [ps_buf ps_state ps_valid ps_file ps_files]. right. exists done, x, r. repeat split; assumption.
Qed.
End Form.
