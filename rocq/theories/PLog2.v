(** Proofs about the log. *)
From Coq Require Import ZifyBool ZifyNat ZifyN.
From Verif Require Import Base PBase MBase64 MSerialize MOs MLog SSerialize SArray SLog PSerialize POs PLog.
Open Scope N_scope.

(** ** The time stamp *)

Lemma strf_four4 : forall y, y <= 9999 -> strf_num 4 (Z.of_N y) = four y.
Proof. intros y H. apply beqb_eq. apply (all_range (N.to_nat 10000) (fun z => beqb (strf_num 4 (Z.of_N z)) (four z))); [vm_compute; reflexivity|lia]. Qed.
Lemma strf_three : forall v, v < 1000 -> strf_num 3 (Z.of_N v) = three v.
Proof. intros y H. apply beqb_eq. apply (all_range (N.to_nat 1000) (fun z => beqb (strf_num 3 (Z.of_N z)) (three z))); [vm_compute; reflexivity|lia]. Qed.

Lemma time_ok : forall ck t, clock_shows ck t -> time_to_str 25 ck = Ok t.
Proof.
  intros ck t (y & mo & d & h & mi & s & Hy & Hmo & Hd & Hh & Hmi & Hs & Hu & (t0 & E & E1 & E2 & E3 & E4 & E5 & E6) & ->).
  unfold time_to_str. rewrite E, E1, E2, E3, E4, E5, E6. replace (Z.of_N y - 1900 + 1900)%Z with (Z.of_N y) by lia. replace (Z.of_N mo - 1 + 1)%Z with (Z.of_N mo) by lia.
  rewrite strf_four4 by lia. rewrite !strf_two by lia. replace (ck_usec ck / 1000 mod 65536) with (ck_usec ck / 1000) by lia. rewrite strf_three by lia.
  apply sprintf_ok. reflexivity.
Qed.
Lemma clock_shows_one : forall ck t t', clock_shows ck t -> clock_shows ck t' -> t = t'.
Proof. intros ck t t' H H'. apply time_ok in H, H'. congruence. Qed.

Lemma aux_ge : forall f n acc, (List.length acc <= List.length (dec_digits_aux f n acc))%nat.
Proof.
  induction f as [|f IH]; intros x a; cbn [dec_digits_aux]; [lia|]. destruct (x <? 10); cbn [List.length]; [lia|]. specialize (IH (x / 10) ((48 + x mod 10) :: a)). cbn [List.length] in IH. lia.
Qed.
Lemma aux_step : forall f n acc, 10 <= n -> dec_digits_aux (S f) n acc = dec_digits_aux f (n / 10) ((48 + n mod 10) :: acc).
Proof. intros f n acc H. cbn [dec_digits_aux]. destruct (n <? 10) eqn:E; [lia|reflexivity]. Qed.
Lemma aux_last : forall f n acc, (S (List.length acc) <= List.length (dec_digits_aux (S f) n acc))%nat.
Proof. intros f n acc. cbn [dec_digits_aux]. destruct (n <? 10); [reflexivity|]. exact (aux_ge f (n / 10) ((48 + n mod 10) :: acc)). Qed.
Lemma digits_four : forall n, 1000 <= n -> (4 <= List.length (dec_digits n))%nat.
Proof.
  intros n H. unfold dec_digits. assert (L : 9 <= N.log2 n) by (apply N.log2_le_pow2; [lia|change (2 ^ 9) with 512; lia]).
  assert (F : exists f, S (N.to_nat (N.log2 n)) = S (S (S (S f)))) by (exists (N.to_nat (N.log2 n) - 3)%nat; lia). destruct F as [f ->].
  rewrite !aux_step by lia. etransitivity; [|apply aux_last]. cbn [List.length]. lia.
Qed.
Lemma digits_five : forall n, 10000 <= n -> (5 <= List.length (dec_digits n))%nat.
Proof.
  intros n H. unfold dec_digits. assert (L : 9 <= N.log2 n) by (apply N.log2_le_pow2; [lia|change (2 ^ 9) with 512; lia]).
  assert (F : exists f, S (N.to_nat (N.log2 n)) = S (S (S (S (S f))))) by (exists (N.to_nat (N.log2 n) - 4)%nat; lia). destruct F as [f ->].
  rewrite !aux_step by lia. etransitivity; [|apply aux_last]. cbn [List.length]. lia.
Qed.

(** "%04d" takes four characters exactly for the years -999 to 9999. *)
Lemma year_four : forall v, (-999 <= v <= 9999)%Z -> List.length (strf_num 4 v) = 4%nat.
Proof.
  intros v H. destruct (Z.le_gt_cases 0 v) as [L|L].
  - rewrite <- (Z2N.id v) by exact L. rewrite strf_four4 by lia. reflexivity.
  - apply Nat.eqb_eq. replace v with (- Z.of_N (Z.to_N (- v)))%Z by lia. apply (all_range (N.to_nat 1000) (fun z => (List.length (strf_num 4 (- Z.of_N z)) =? 4)%nat)); [vm_compute; reflexivity|lia].
Qed.
Lemma year_more : forall v, (v < -999 \/ 9999 < v)%Z -> (5 <= List.length (strf_num 4 v))%nat.
Proof.
  intros v H. unfold strf_num. destruct (v <? 0)%Z eqn:E.
  - cbn [List.length]. rewrite app_length. pose proof (digits_four (Z.to_N (Z.abs v)) ltac:(lia)). lia.
  - rewrite app_length. pose proof (digits_five (Z.to_N (Z.abs v)) ltac:(lia)). lia.
Qed.
Lemma three_len : forall v, (0 <= v < 1000)%Z -> List.length (strf_num 3 v) = 3%nat.
Proof. intros v H. rewrite <- (Z2N.id v) by lia. rewrite strf_three by lia. reflexivity. Qed.
Lemma two_len : forall v, (0 <= v < 100)%Z -> List.length (strf_num 2 v) = 2%nat.
Proof. intros v H. rewrite <- (Z2N.id v) by lia. rewrite strf_two by lia. reflexivity. Qed.

(** localtime fills every field but the year in its range. *)
Lemma time_iff : forall ck t, ck_local ck = Some t -> (0 <= tm_mon t <= 11)%Z -> (1 <= tm_mday t <= 31)%Z -> (0 <= tm_hour t <= 23)%Z -> (0 <= tm_min t <= 59)%Z -> (0 <= tm_sec t <= 60)%Z -> ck_usec ck < 1000000 ->
  ((exists k, time_to_str 25 ck = UB k) <-> (tm_year t + 1900 < -999 \/ 9999 < tm_year t + 1900)%Z).
Proof.
  intros ck t E H1 H2 H3 H4 H5 H6. unfold time_to_str. rewrite E. unfold sprintf_chk. unfold blen. rewrite !app_length. rewrite (two_len (tm_mon t + 1)), (two_len (tm_mday t)), (two_len (tm_hour t)), (two_len (tm_min t)), (two_len (tm_sec t)), three_len by lia. cbn [List.length].
  destruct (Z.le_gt_cases (-999) (tm_year t + 1900)) as [A|A]; [destruct (Z.le_gt_cases (tm_year t + 1900) 9999) as [B|B]|].
  - rewrite year_four by lia. cbn [Nat.add]. split; [intros [k Q]; discriminate|lia].
  - split; [lia|]. intros _. pose proof (year_more (tm_year t + 1900) ltac:(lia)). match goal with |- context [if ?b then _ else _] => destruct b eqn:Q end; [lia|]. eexists. reflexivity.
  - split; [lia|]. intros _. pose proof (year_more (tm_year t + 1900) ltac:(lia)). match goal with |- context [if ?b then _ else _] => destruct b eqn:Q end; [lia|]. eexists. reflexivity.
Qed.

(** ** Histories *)

Definition logger_after (past : list logop) : logger :=
  mk_logger (lock_in past) (level_in past) (quiet_in past) (meta_in past) (color_in past) (file_in past) (opened_in past).

Lemma table_names : forall n, n <= 4 -> exists name, table_at level_names n = Ok name /\ left5 name = level_name n.
Proof. intros n H. assert (C : n = 0 \/ n = 1 \/ n = 2 \/ n = 3 \/ n = 4) by lia. destruct C as [->|[->|[->|[->| ->]]]]; eexists; (split; reflexivity). Qed.
Lemma table_colors : forall n, n <= 4 -> table_at level_colors n = Ok (level_color n).
Proof. intros n H. assert (C : n = 0 \/ n = 1 \/ n = 2 \/ n = 3 \/ n = 4) by lia. destruct C as [->|[->|[->|[->| ->]]]]; reflexivity. Qed.

Lemma check_level : forall past m, log_check_level (logger_after past) (m_level m) (ignores_level (m_kind m)) = false <-> reached past m.
Proof.
  intros past m. unfold log_check_level, reached, logger_after. cbn [l_level l_quiet]. destruct (m_kind m); cbn [ignores_level negb]; rewrite ?andb_true_r, ?andb_false_r.
  4:{ split; [left; reflexivity|reflexivity]. }
  all: destruct (m_level m <? level_in past) eqn:E; [split; [discriminate|intros [Q|[_ Q]]; [discriminate|lia]]|];
    (destruct (quiet_in past); [split; [discriminate|intros [Q|[Q _]]; discriminate]|]; split; [intros _; right; split; [reflexivity|lia]|reflexivity]).
Qed.

Lemma print_ok : forall past m time, m_level m <= 4 ->
  print_to (logger_after past) m (passes_errno m) time (get_error_text (m_clock m) (passes_errno m)) = Ok (Wrote (file_in past) (line_text past m (errno_of m) time)).
Proof.
  intros past m time H. unfold print_to, logger_after. cbn [l_meta l_color l_file]. destruct (table_names _ H) as (name & T1 & T2). rewrite T1, (table_colors _ H). cbn [obind]. rewrite T2.
  change (passes_errno m) with (errno_of m). change (get_error_text (m_clock m) (errno_of m)) with (error_note m (errno_of m)). unfold line_text.
  destruct (meta_in past); [destruct (color_in past)|]; cbn [obind]; cbv zeta; rewrite <- ?app_assoc; reflexivity.
Qed.

Lemma msg_effect : forall past m, call_ok (Message m) -> exists es, log_msg (logger_after past) m = Ok es /\ effect past (Message m) es.
Proof.
  intros past m [Hl [time Ht]]. unfold log_msg. destruct (log_check_level (logger_after past) (m_level m) (ignores_level (m_kind m))) eqn:E.
  - exists []. split; [reflexivity|]. left. split; [|reflexivity]. intros Q. apply check_level in Q. congruence.
  - apply check_level in E. rewrite (time_ok _ _ Ht). cbn [obind]. rewrite print_ok by exact Hl. cbn [obind]. cbn [l_quiet logger_after].
    assert (SH : quiet_in past = false -> shown past m) by (intros Q; split; [exact Q|]; destruct E as [E|[_ E]]; [left; exact E|right; exact E]).
    destruct (quiet_in past) eqn:Q; cbn [negb obind]; (eexists; split; [reflexivity|]); right; (split; [exact E|]); exists time; (split; [exact Ht|]); unfold lock_events, unlock_events; cbn [l_lock logger_after].
    + exists []. split; [right; split; [intros [Z _]; congruence|reflexivity]|]. destruct (lock_in past); reflexivity.
    + exists [Wrote (file_in past) (line_text past m (errno_of m) time)]. split; [left; split; [apply SH; reflexivity|reflexivity]|]. destruct (lock_in past); reflexivity.
Qed.

Lemma op_effect : forall past op, call_ok op -> exists es, log_op (logger_after past) op = Ok (logger_after (op :: past), es) /\ effect past op es.
Proof.
  intros past op H. destruct op as [f|n|b|b|b|[]| |m]; try (eexists; split; reflexivity).
  - eexists. split; [|reflexivity]. cbn [log_op logger_after l_lock l_level l_quiet l_meta l_color l_file l_next]. unfold logger_after. do 3 f_equal. unfold opened_in. cbn [filter List.length]. lia.
  - cbn [log_op logger_after l_file]. cbn [effect]. destruct (file_in past) as [fd|] eqn:E; (eexists; split; [|reflexivity]). { reflexivity. }
    do 2 f_equal. unfold logger_after. change (file_in (CloseFile :: past)) with (@None N). rewrite E. reflexivity.
  - destruct (msg_effect past m H) as (es & E & F). exists es. cbn [log_op]. rewrite E. split; [reflexivity|exact F].
Qed.

Lemma log_history : forall ops past, Forall call_ok ops -> exists es, log_run (logger_after past) ops = Ok es /\ history past ops es.
Proof.
  induction ops as [|op r IH]; intros past H; cbn [log_run history]; [exists []; split; reflexivity|]. inversion H as [|? ? H1 H2]; subst.
  destruct (op_effect past op H1) as (e1 & E1 & F1). rewrite E1. cbn [obind].
  assert (ST : match op with Message m => ends (m_kind m) | _ => false end = stops op) by reflexivity. rewrite ST. destruct (stops op).
  - exists (e1 ++ [Ended]). split; [reflexivity|]. exists e1, [Ended]. auto.
  - destruct (IH (op :: past) H2) as (e2 & E2 & F2). rewrite E2. cbn [obind]. exists (e1 ++ e2). split; [reflexivity|]. exists e1, e2. auto.
Qed.

Lemma bracketed_app : forall a b, bracketed a -> bracketed b -> bracketed (a ++ b).
Proof. intros a b H Hb. induction H; cbn [app]; [exact Hb|constructor; assumption|apply br_pair; assumption|apply br_line; assumption]. Qed.
Lemma effect_bracketed : forall past op es, effect past op es -> bracketed es.
Proof.
  intros past op es H. destruct op as [f|n|b|b|b|[]| |m]; cbn [effect] in H; try (subst; constructor).
  - intros f. split; discriminate.
  - constructor.
  - destruct (file_in past); subst; [|constructor]. constructor; [intros f; split; discriminate|constructor].
  - destruct H as [[_ ->]|(_ & time & _ & out & [[_ ->]|[_ ->]] & ->)]; [constructor| |]; destruct (lock_in past); cbn [app].
    + apply br_line. constructor.
    + apply br_other; [intros f; split; discriminate|constructor].
    + apply br_pair. constructor.
    + constructor.
Qed.
Lemma history_bracketed : forall ops past es, history past ops es -> bracketed es.
Proof.
  induction ops as [|op r IH]; intros past es H; cbn [history] in H; [subst; constructor|]. destruct H as (e1 & e2 & -> & F & H). apply bracketed_app; [eapply effect_bracketed; exact F|].
  destruct (stops op); [subst; constructor; [intros f; split; discriminate|constructor]|]. eapply IH. exact H.
Qed.

Lemma log_run_app : forall a b past, Forall call_ok a -> Forall goes_on a ->
  exists es, history past a es /\ log_run (logger_after past) (a ++ b) = obind (log_run (logger_after (rev a ++ past)) b) (fun e => Ok (es ++ e)).
Proof.
  induction a as [|op r IH]; intros b past H G; cbn [app log_run history rev].
  - exists []. split; [reflexivity|]. destruct (log_run (logger_after past) b); reflexivity.
  - inversion H as [|? ? H1 H2]; subst. inversion G as [|? ? G1 G2]; subst. destruct (op_effect past op H1) as (e1 & E1 & F1). rewrite E1. cbn [obind].
    assert (ST : match op with Message m => ends (m_kind m) | _ => false end = stops op) by reflexivity. rewrite ST. unfold goes_on in G1. rewrite G1.
    destruct (IH b (op :: past) H2 G2) as (e2 & F2 & E2). rewrite E2. exists (e1 ++ e2). split.
    { exists e1, e2. auto. }
    rewrite <- app_assoc. cbn [app]. destruct (log_run (logger_after (rev r ++ op :: past)) b) as [e3|k]; cbn [obind]; [rewrite app_assoc|]; reflexivity.
Qed.

Lemma level_over : forall l n, 4 < n -> List.length l = 5%nat -> table_at l n = UB OOBRead.
Proof. intros l n H L. unfold table_at. destruct (nth_error l (N.to_nat n)) eqn:E; [|reflexivity]. exfalso. assert (Q : nth_error l (N.to_nat n) <> None) by congruence. apply nth_error_Some in Q. lia. Qed.

(** When a message is not survived. *)
Lemma message_crash : forall ops m t, Forall call_ok ops -> Forall goes_on ops -> ck_local (m_clock m) = Some t -> clock_ranges (m_clock m) t ->
  ((exists k, log_run logger_init (ops ++ [Message m]) = UB k) <->
   reached (rev ops) m /\ ((tm_year t + 1900 < -999 \/ 9999 < tm_year t + 1900)%Z \/ shown (rev ops) m /\ meta_in (rev ops) = true /\ 4 < m_level m)).
Proof.
  intros ops m t H G E (R1 & R2 & R3 & R4 & R5 & R6). pose proof (time_iff _ _ E R1 R2 R3 R4 R5 R6) as TI.
  destruct (log_run_app ops [Message m] [] H G) as (es & _ & Q). change logger_init with (logger_after []). rewrite Q. clear Q. rewrite app_nil_r. set (past := rev ops). cbn [log_run log_op].
  assert (X : (exists k, log_msg (logger_after past) m = UB k) <-> reached past m /\ ((tm_year t + 1900 < -999 \/ 9999 < tm_year t + 1900)%Z \/ shown past m /\ meta_in past = true /\ 4 < m_level m)).
  { unfold log_msg. destruct (log_check_level (logger_after past) (m_level m) (ignores_level (m_kind m))) eqn:C.
    { split; [intros [k Z]; discriminate|]. intros [Z _]. apply check_level in Z. congruence. }
    apply check_level in C. destruct (time_to_str 25 (m_clock m)) as [tt|k] eqn:T; cbn [obind].
    2:{ split; [|intros _; exists k; reflexivity]. intros _. split; [exact C|]. left. apply TI. exists k. reflexivity. }
    assert (NY : ~ (tm_year t + 1900 < -999 \/ 9999 < tm_year t + 1900)%Z) by (intros Z; apply TI in Z; destruct Z as [k Z]; discriminate).
    cbn [l_quiet logger_after]. destruct (quiet_in past) eqn:Qt; cbn [negb obind].
    { split; [intros [k Z]; discriminate|]. intros [_ [Z|[[Z _] _]]]; [contradiction|congruence]. }
    assert (SH : shown past m) by (split; [exact Qt|]; destruct C as [C|[_ C]]; [left; exact C|right; exact C]).
    destruct (N.le_gt_cases (m_level m) 4) as [L|L].
    - rewrite print_ok by exact L. cbn [obind]. split; [intros [k Z]; discriminate|]. intros [_ [Z|(_ & _ & Z)]]; [contradiction|lia].
    - unfold print_to. cbn [l_meta logger_after]. destruct (meta_in past) eqn:M.
      + rewrite level_over by (try exact L; reflexivity). cbn [obind]. split; [|intros _; eexists; reflexivity]. intros _. split; [exact C|]. right. auto.
      + cbn [obind]. split; [intros [k Z]; discriminate|]. intros [_ [Z|(_ & Z & _)]]; [contradiction|discriminate]. }
  rewrite <- X. destruct (log_msg (logger_after past) m) as [e|k]; cbn [obind]; [|split; intros _; exists k; reflexivity].
  split; [intros [k Z]|intros [k Z]; discriminate]. destruct (ends (m_kind m)); discriminate.
Qed.

Lemma history_files : forall ops past es, history past ops es -> Forall goes_on ops -> one_file past ops ->
  forall fd, In (Opened fd) es \/ file_in past = Some fd -> In (Closed fd) es \/ file_in (rev ops ++ past) = Some fd.
Proof.
  induction ops as [|op r IH]; intros past es H G O fd D; cbn [history one_file rev app] in *.
  - subst. destruct D as [[]|D]. right. exact D.
  - inversion G as [|? ? G1 G2]; subst. destruct H as (e1 & e2 & -> & F & H). unfold goes_on in G1. rewrite G1 in H. destruct O as [O1 O2].
    rewrite <- app_assoc. cbn [app]. specialize (IH (op :: past) e2 H G2 O2 fd).
    assert (K : In (Closed fd) e1 \/ (In (Opened fd) e2 \/ file_in (op :: past) = Some fd)).
    { destruct op as [f|n|b|b|b|[]| |m]; cbn [effect file_in] in *; try (subst e1; cbn [app] in *; destruct D as [D|D]; [right; left; exact D|right; right; exact D]).
      - subst e1. cbn [app In] in D. destruct D as [[D|D]|D]; [injection D as <-; right; right; reflexivity|right; left; exact D|congruence].
      - subst e1. cbn [app In] in D. destruct D as [D|D]; [right; left; exact D|congruence].
      - subst e1. destruct D as [D|D]; [|rewrite D; left; left; reflexivity]. apply in_app_or in D. destruct D as [D|D]; [|right; left; exact D]. destruct (file_in past); [destruct D as [D|[]]; discriminate|contradiction].
      - destruct D as [D|D]; [|right; right; exact D]. apply in_app_or in D. destruct D as [D|D]; [|right; left; exact D]. exfalso.
        destruct F as [[_ ->]|(_ & time & _ & out & Ho & ->)]; [contradiction|]. assert (NO : ~ In (Opened fd) out) by (destruct Ho as [[_ ->]|[_ ->]]; [intros [Z|[]]; discriminate|intros []]).
        destruct (lock_in past); [|contradiction]. apply in_app_or in D. destruct D as [[D|[]]|D]; [discriminate|]. apply in_app_or in D. destruct D as [D|[D|[]]]; [contradiction|discriminate]. }
    destruct K as [K|K]; [left; apply in_or_app; left; exact K|]. destruct (IH K) as [Q|Q]; [left; apply in_or_app; right; exact Q|right; exact Q].
Qed.

(** ** Refutations and cases *)
Definition clock_case (year : Z) : clock := mk_clock (Some (mk_tm 9 33 21 29 10 year 4 332 0)) 123456 (fun _ => s2b "Bad").
Definition message_case (k : mkind) (level : N) : message := mk_message k level (s2b "a.c") 7 22%Z (s2b "hello") (clock_case 73).
Lemma clock_case_shows : clock_shows (clock_case 73) (s2b "1973-11-29 21:33:09.123 ").
Proof. exists 1973, 11, 29, 21, 33, 9. repeat (split; [cbn; lia|]). split; [eexists; repeat (split; [reflexivity|])|]; reflexivity. Qed.

Lemma hex_length_refuted : exists mem size data len up mem' n, 0 < size /\ size <= blen mem /\ 0 < len /\ len <= blen data /\ bytes_ok data /\
  printf_hex (Some mem) size (Some data) len up = Ok (Some mem', n) /\ n <> blen (c_string mem').
Proof.
  exists [7; 7; 7; 7; 7], 4, [171; 205], 2, true, [65; 66; 67; 0; 7], 2. repeat (split; [vm_compute; try reflexivity; try discriminate; try (repeat constructor; reflexivity)|]). vm_compute. discriminate.
Qed.
Lemma hex_empty_refuted : exists mem size data mem' n, 0 < size /\ size <= blen mem /\ printf_hex (Some mem) size (Some data) 0 true = Ok (Some mem', n) /\ c_string mem' <> hex_text true [].
Proof. exists [65; 65; 65], 3, [], [65; 65; 0], 0. repeat (split; [vm_compute; try reflexivity; try discriminate|]). vm_compute. discriminate. Qed.
Lemma level_refuted : exists ops k, log_run logger_init ops = UB k.
Proof. exists [Message (message_case Levels 5)], OOBRead. vm_compute. reflexivity. Qed.
Lemma stamp_refuted : exists ck t k, ck_local ck = Some t /\ clock_ranges ck t /\ time_to_str 25 ck = UB k.
Proof. exists (clock_case 8100), (mk_tm 9 33 21 29 10 8100 4 332 0), OOBWrite. split; [reflexivity|]. split; [repeat split; cbn; lia|]. vm_compute. reflexivity. Qed.
Lemma log_files_refuted : exists ops es fd, Forall call_ok ops /\ Forall goes_on ops /\ log_run logger_init ops = Ok es /\ In (Opened fd) es /\ ~ In (Closed fd) es /\ file_in (rev ops) = None.
Proof.
  exists [OpenFile true; OpenFile true; CloseFile], [Opened 0; Opened 1; Closed 1], 0.
  split; [repeat constructor|]. split; [repeat constructor|]. split; [reflexivity|]. split; [left; reflexivity|]. split; [|reflexivity]. intros [Q|[Q|[Q|[]]]]; discriminate.
Qed.
Lemma log_spec : forall ops es, Forall call_ok ops -> log_run logger_init ops = Ok es -> history [] ops es /\ bracketed es.
Proof. intros ops es H E. destruct (log_history ops [] H) as (e & E2 & F). change (logger_after []) with logger_init in E2. rewrite E in E2. injection E2 as <-. split; [exact F|]. eapply history_bracketed. exact F. Qed.
Lemma log_total : forall ops, Forall call_ok ops -> exists es, log_run logger_init ops = Ok es.
Proof. intros ops H. destruct (log_history ops [] H) as (e & E2 & _). exists e. exact E2. Qed.
Lemma log_files : forall ops es fd, Forall call_ok ops -> Forall goes_on ops -> one_file [] ops -> log_run logger_init ops = Ok es -> In (Opened fd) es -> In (Closed fd) es \/ file_in (rev ops) = Some fd.
Proof. intros ops es fd H G O E D. destruct (log_spec _ _ H E) as [F _]. pose proof (history_files ops [] es F G O fd (or_introl D)) as Q. rewrite app_nil_r in Q. exact Q. Qed.
Lemma stdin_refuted : exists junk input k, blen junk = 4096 /\ main_reads junk input = UB k.
Proof. exists (repeat 0 (N.to_nat 4096)), (repeat 65 (N.to_nat 4096)), OOBWrite. split; [vm_compute; reflexivity|]. apply main_reads_over; [vm_compute; reflexivity|]. vm_compute. discriminate. Qed.
