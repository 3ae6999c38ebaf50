(** Reading the registrar's enrolment log back. *)
From Verif Require Import Base PBase MOs MBase64 MSerialize MVoucher MCrypto MRequest MHeap MArray MVoucherHeap MConfig MLog MHandlers MEnrolLog
  SBase64 SSerialize SHeap SArray SConfig SVoucher SRequest SHandlers SEnrolLog
  PBase64 PHeap PArray PAcquire PAcquire2 PMasa PRegistrar PEnroll PRegistrar2 PEnrolLog.
Open Scope N_scope.

Lemma split_at : forall c (a b x y : bytes), ~ In c a -> ~ In c b -> a ++ c :: x = b ++ c :: y -> a = b /\ x = y.
Proof.
  intros c. induction a as [|u a IH]; intros [|v b] x y A B E; cbn [app] in E.
  - injection E as ->. auto.
  - injection E as -> _. destruct B. left. reflexivity.
  - injection E as -> _. destruct A. left. reflexivity.
  - injection E as -> E. destruct (IH b x y) as [-> ->]; [intros Q; apply A; right; exact Q|intros Q; apply B; right; exact Q|exact E|auto].
Qed.
Lemma dec_blank : forall t, Forall is_dec t -> ~ In 32 t.
Proof. intros t H Q. rewrite Forall_forall in H. specialize (H _ Q). unfold is_dec in H. lia. Qed.
Lemma hex_blank : forall t, Forall is_hex t -> ~ In 32 t.
Proof. intros t H Q. rewrite Forall_forall in H. specialize (H _ Q). unfold is_hex in H. lia. Qed.
Lemma holder_quote : forall t, plain_holder t -> ~ In 34 (holder_text t).
Proof. intros [s|] H Q; cbn [plain_holder holder_text] in *; [tauto|]. vm_compute in Q. intuition discriminate. Qed.
Lemma holder_inj : forall s t, plain_holder s -> plain_holder t -> holder_text s = holder_text t -> s = t.
Proof. intros [s|] [t|] A B E; cbn [plain_holder holder_text] in *; try congruence; exfalso; [apply A|apply B]; congruence. Qed.
Lemma number_plain : forall z ds, fits z -> number_text z ds -> hex_value ds = z.
Proof. intros z ds F [_ [[_ H]|[N _]]]; [exact H|contradiction]. Qed.

Lemma entry_apart : forall e e' l l' r r', plain_entry e -> plain_entry e' -> entry_text e l -> entry_text e' l' -> l ++ r = l' ++ r' -> e = e' /\ r = r'.
Proof.
  intros e e' l l' r r' (F1 & F2 & F3 & F4 & F5) (G1 & G2 & G3 & G4 & G5) (t & i & n & T1 & T2 & T3 & T4 & ->) (t' & i' & n' & U1 & U2 & U3 & U4 & ->) E.
  rewrite <- !app_assoc in E. cbn [app] in E.
  apply split_at in E; [|apply dec_blank; assumption|apply dec_blank; assumption]. destruct E as [-> E]. injection E as E.
  apply split_at in E; [|apply hex_blank; apply T3|apply hex_blank; apply U3]. destruct E as [-> E]. injection E as E.
  apply split_at in E; [|apply holder_quote; assumption|apply holder_quote; assumption]. destruct E as [Hh E]. injection E as E.
  apply split_at in E; [|apply hex_blank; apply T4|apply hex_blank; apply U4]. destruct E as [-> E]. injection E as E.
  apply split_at in E; [|apply holder_quote; assumption|apply holder_quote; assumption]. destruct E as [Hl E]. injection E as E. split; [|exact E].
  apply holder_inj in Hh; [|assumption|assumption]. apply holder_inj in Hl; [|assumption|assumption].
  rewrite Z.mod_small in T2, U2 by assumption. apply number_plain in T3; [|assumption]. apply number_plain in U3; [|assumption]. apply number_plain in T4; [|assumption]. apply number_plain in U4; [|assumption].
  destruct e as [e1 e2 e3 e4 e5], e' as [e1' e2' e3' e4' e5']. cbn [en_time en_client en_cert en_client_holder en_cert_holder] in *. congruence.
Qed.
Lemma entry_nonnil : forall e l, entry_text e l -> l <> [].
Proof. intros e l (t & i & n & _ & _ & _ & _ & ->) Q. destruct t; discriminate Q. Qed.

Lemma describes_fun : forall now i l e e', describes now i l e -> describes now i l e' -> e = e'.
Proof.
  intros now i l [e1 e2 e3 e4 e5] [e1' e2' e3' e4' e5'] (_ & _ & A1 & A2 & A3 & A4 & A5) (_ & _ & B1 & B2 & B3 & B4 & B5). cbn [en_time en_client en_cert en_client_holder en_cert_holder] in *.
  pose proof (holder_fun _ _ _ A3 B3). pose proof (holder_fun _ _ _ A5 B5). congruence.
Qed.
Lemma save_line : forall now log i l e log', describes now i l e -> save_to_log now true log (Some i) l = Ok log' -> exists line, entry_text e line /\ log' = log ++ line.
Proof.
  intros now log i l e log' D E. destruct (save_run now true log (Some i) l) as (lg & E' & [(i' & e' & line & _ & Q & D' & T & ->)|(_ & N)]).
  - injection Q as <-. rewrite E in E'. injection E' as ->. exists line. rewrite (describes_fun _ _ _ _ _ D D'). auto.
  - exfalso. apply N. split; [reflexivity|]. exists i, e. auto.
Qed.
Lemma logs_lines : forall es log, logs es log -> exists ls, Forall2 entry_text es ls /\ log = List.concat ls.
Proof.
  intros es log H. induction H as [|es log now i l e log' H (ls & F & ->) D E]; [exists []; split; [constructor|reflexivity]|].
  destruct (save_line _ _ _ _ _ _ D E) as (line & T & ->). exists (ls ++ [line]). split; [apply Forall2_app; [exact F|constructor; [exact T|constructor]]|]. rewrite concat_app. cbn [List.concat]. rewrite app_nil_r. reflexivity.
Qed.
Lemma lines_apart : forall es es' ls ls', Forall plain_entry es -> Forall plain_entry es' -> Forall2 entry_text es ls -> Forall2 entry_text es' ls' -> List.concat ls = List.concat ls' -> es = es'.
Proof.
  induction es as [|e es IH]; intros es' ls ls' P P' F F' E.
  - inversion F; subst. inversion F' as [|e' l' es2 ls2 T T' Q1 Q2]; subst; [reflexivity|]. cbn [List.concat] in E. symmetry in E. apply app_eq_nil in E. destruct E as [E _]. exfalso. exact (entry_nonnil _ _ T E).
  - inversion F as [|e1 l es1 ls1 T T1 Q1 Q2]; subst. inversion F' as [|e' l' es2 ls2 U U' Q1 Q2]; subst; cbn [List.concat] in E.
    + apply app_eq_nil in E. destruct E as [E _]. exfalso. exact (entry_nonnil _ _ T E).
    + destruct (entry_apart _ _ _ _ _ _ (Forall_inv P) (Forall_inv P') T U E) as [-> E2]. f_equal. exact (IH _ _ _ (Forall_inv_tail P) (Forall_inv_tail P') T1 U' E2).
Qed.
(** C91. *)
Lemma log_reads_back : forall es es' log, Forall plain_entry es -> Forall plain_entry es' -> logs es log -> logs es' log -> es = es'.
Proof.
  intros es es' log P P' H H'. destruct (logs_lines _ _ H) as (ls & F & E), (logs_lines _ _ H') as (ls' & F' & E'). eapply lines_apart; [exact P|exact P'|exact F|exact F'|congruence].
Qed.
(** Every history of enrolments with readable certificates leaves a log. *)
Lemma log_grows : forall es log now i l, logs es log -> readable_names (cs_view i) -> readable_names (cs_view l) ->
  exists e line, describes now i l e /\ entry_text e line /\ logs (es ++ [e]) (log ++ line).
Proof.
  intros es log now i l H Ri Rl. destruct (save_run now true log (Some i) l) as (lg & E & [(i' & e & line & _ & Q & D & T & ->)|(_ & N)]).
  - injection Q as <-. exists e, line. split; [exact D|]. split; [exact T|]. eapply logs_more; [exact H|exact D|exact E].
  - exfalso. apply N. split; [reflexivity|].
    destruct (meta_cases (cs_view i)) as [[Q _]|[_ (a & b & _ & Hi)]]; [contradiction|]. destruct (meta_cases (cs_view l)) as [[Q _]|[_ (a2 & b2 & _ & Hl)]]; [contradiction|].
    exists i, (mk_enrolled now (cs_serial i) (crypto_getcert_serial b) (cs_serial l) (crypto_getcert_serial b2)). split; [reflexivity|]. repeat split; cbn [en_time en_client en_cert en_client_holder en_cert_holder]; try (apply Ri); try (apply Rl); assumption.
Qed.

(** *** Concrete logs *)
Definition named (holder : option bytes) (serial : Z) : cert_seen :=
  mk_seen (mk_view (fun _ => Some None) (fun n => if beqb n (s2b "serialNumber") then Some holder else Some None) (Some []) (Some [])) serial.
Lemma named_readable : forall t z, readable_names (cs_view (named t z)).
Proof. intros t z n _. cbn [named cs_view cv_issuer_entry cv_subject_entry]. split; [discriminate|]. destruct (beqb n (s2b "serialNumber")); discriminate. Qed.
Lemma named_describes : forall now t z u y, describes now (named t z) (named u y) (mk_enrolled now z (option_map c_string t) y (option_map c_string u)).
Proof.
  intros. split; [apply named_readable|]. split; [apply named_readable|]. cbn [en_time en_client en_cert en_client_holder en_cert_holder named cs_serial]. split; [reflexivity|]. split; [reflexivity|].
  split; [destruct t; cbn [option_map holder_of]; [eexists; split; reflexivity|reflexivity]|]. split; [reflexivity|]. destruct u; cbn [option_map holder_of]; [eexists; split; reflexivity|reflexivity].
Qed.
Fixpoint run_log (hist : list (Z * option bytes * Z * option bytes * Z)) (log : bytes) : outcome bytes :=
  match hist with
  | [] => Ok log
  | (now, t, z, u, y) :: r => obind (save_to_log now true log (Some (named t z)) (named u y)) (run_log r)
  end.
Definition entry_of (x : Z * option bytes * Z * option bytes * Z) : enrolled :=
  let '(now, t, z, u, y) := x in mk_enrolled now z (option_map c_string t) y (option_map c_string u).
Lemma run_logs : forall hist es log log', logs es log -> run_log hist log = Ok log' -> logs (es ++ map entry_of hist) log'.
Proof.
  induction hist as [|[[[[now t] z] u] y] r IH]; intros es log log' H E; cbn [run_log map] in *; [injection E as <-; rewrite app_nil_r; exact H|].
  destruct (save_to_log now true log (Some (named t z)) (named u y)) as [l1|k] eqn:Q; cbn [obind] in E; [|discriminate].
  change (entry_of _ :: ?m) with ([entry_of (now, t, z, u, y)] ++ m). rewrite app_assoc. apply (IH _ l1); [|exact E]. eapply logs_more; [exact H|apply named_describes|exact Q].
Qed.
Definition run_case (hist : list (Z * option bytes * Z * option bytes * Z)) : bytes := match run_log hist [] with Ok l => l | UB _ => [] end.
Definition ran (o : outcome bytes) : bool := match o with Ok _ => true | UB _ => false end.
Lemma run_case_logs : forall hist, ran (run_log hist []) = true -> logs (map entry_of hist) (run_case hist).
Proof. intros hist H. unfold run_case. destruct (run_log hist []) as [l|] eqn:E; [|discriminate]. exact (run_logs hist [] [] l logs_none E). Qed.

(** A holder's name may end the entry and start another one. *)
Definition forged : bytes := s2b "B""" ++ [10] ++ s2b "1700000001 0x3 ""C"" 0x4 ""D".
Definition one_enrolment : list (Z * option bytes * Z * option bytes * Z) := [(1700000000%Z, Some (s2b "A"), 1%Z, Some forged, 2%Z)].
Definition two_enrolments : list (Z * option bytes * Z * option bytes * Z) :=
  [(1700000000%Z, Some (s2b "A"), 1%Z, Some (s2b "B"), 2%Z); (1700000001%Z, Some (s2b "C"), 3%Z, Some (s2b "D"), 4%Z)].
Lemma log_forged : exists e es log, logs [e] log /\ logs es log /\ List.length es = 2%nat /\ Forall plain_entry es /\ fits (en_time e) /\ fits (en_client e) /\ fits (en_cert e) /\ plain_holder (en_client_holder e).
Proof.
  exists (entry_of (1700000000%Z, Some (s2b "A"), 1%Z, Some forged, 2%Z)), (map entry_of two_enrolments), (run_case one_enrolment).
  split; [exact (run_case_logs one_enrolment eq_refl)|]. split; [replace (run_case one_enrolment) with (run_case two_enrolments) by (vm_compute; reflexivity); apply run_case_logs; vm_compute; reflexivity|]. split; [reflexivity|].
  split; [|repeat split; try (vm_compute; intuition discriminate)].
  repeat constructor; unfold fits; cbn [entry_of en_time en_client en_cert en_client_holder en_cert_holder]; try lia; try (vm_compute; intuition discriminate).
Qed.
Definition long_serial (z : Z) : list (Z * option bytes * Z * option bytes * Z) := [(1700000000%Z, Some (s2b "A"), 1%Z, Some (s2b "B"), z)].
Lemma log_numbers_lost : forall z, ~ fits z -> exists e e' log, logs [e] log /\ logs [e'] log /\ en_cert e = z /\ en_cert e' = 0%Z /\
  en_time e = en_time e' /\ en_client e = en_client e' /\ en_client_holder e = en_client_holder e' /\ en_cert_holder e = en_cert_holder e'.
Proof.
  intros z NF. exists (entry_of (1700000000%Z, Some (s2b "A"), 1%Z, Some (s2b "B"), z)), (entry_of (1700000000%Z, Some (s2b "A"), 1%Z, Some (s2b "B"), 0%Z)), (run_case (long_serial 0)).
  assert (G : get_uint64 z = 0). { unfold get_uint64. unfold fits in NF. destruct ((0 <=? z) && (z <? 18446744073709551616))%Z eqn:E; [lia|reflexivity]. }
  assert (E : run_log (long_serial z) [] = run_log (long_serial 0) []).
  { cbn [long_serial run_log]. f_equal. unfold save_to_log. cbn [named cs_serial option_map cs_view]. rewrite G. reflexivity. }
  split; [|split; [exact (run_case_logs (long_serial 0) eq_refl)|repeat split]].
  replace (run_case (long_serial 0)) with (run_case (long_serial z)) by (unfold run_case; rewrite E; reflexivity).
  apply (run_case_logs (long_serial z)). rewrite E. vm_compute. reflexivity.
Qed.
Definition null_holder (t : option bytes) : list (Z * option bytes * Z * option bytes * Z) := [(1700000000%Z, Some (s2b "A"), 1%Z, t, 2%Z)].
Lemma log_null : exists e e' log, logs [e] log /\ logs [e'] log /\ en_cert_holder e = None /\ en_cert_holder e' = Some (s2b "NULL") /\ fits (en_cert e) /\ fits (en_cert e').
Proof.
  exists (entry_of (1700000000%Z, Some (s2b "A"), 1%Z, None, 2%Z)), (entry_of (1700000000%Z, Some (s2b "A"), 1%Z, Some (s2b "NULL"), 2%Z)), (run_case (null_holder None)).
  split; [exact (run_case_logs (null_holder None) eq_refl)|]. split; [replace (run_case (null_holder None)) with (run_case (null_holder (Some (s2b "NULL")))) by (vm_compute; reflexivity); exact (run_case_logs (null_holder (Some (s2b "NULL"))) eq_refl)|].
  repeat split; vm_compute; intuition discriminate.
Qed.

(** C90: a client without a certificate leaves no trace. *)
Definition seen_case (b : bytes) : option cert_seen := Some (named (Some (s2b "B")) 2).
Lemma enroll_untraced : exists sc w c h seen now log body tbs out h', (forall k ct tbs out, sc k ct tbs = Some out -> bytes_ok out) /\ world_ok w /\ heap_wf h /\ plenty h /\
  heap_string h (rc_ca_cert c) = Ok (s2b "ca") /\ heap_string h (rc_ca_key c) = Ok (s2b "cakey") /\ bytes_ok body /\
  rfc_decode (c_string body) = Some tbs /\ enrolls sc w (s2b "ca") (s2b "cakey") tbs out /\ seen out <> None /\
  enroll_logged sc w c h seen now true log None body = Ok (200%Z, rfc_encode out, h', log).
Proof.
  destruct enroll_stranger_refuted as (sc & w & c & h & body & tbs & out & h' & SC & WO & W & PL & C1 & C2 & B & Ed & En & E).
  exists sc, w, c, h, seen_case, 1700000000%Z, (s2b "old"), body, tbs, out, h'. do 9 (split; [assumption|]). split; [discriminate|].
  destruct (enroll_log_exact sc w c _ _ h seen_case 1700000000 true (s2b "old") None body SC W PL C1 C2 B) as (s & r & h1 & l & F1 & F2 & F3).
  { intros Q. apply decode_bad in Q. destruct Q. congruence. }
  cbn [option_map] in F2. rewrite E in F2. injection F2 as <- <- <-. rewrite F1. destruct F3 as [(Q & _)|(_ & tbs' & out' & _ & _ & _ & [(i & ? & ? & ? & _ & Q & _)|(-> & _)])]; [congruence|discriminate|reflexivity].
Qed.
(** A client with one does. *)
Lemma enroll_traced : exists sc w c h seen now log i body tbs out h' e line, (forall k ct tbs out, sc k ct tbs = Some out -> bytes_ok out) /\ world_ok w /\ heap_wf h /\ plenty h /\
  heap_string h (rc_ca_cert c) = Ok (s2b "ca") /\ heap_string h (rc_ca_key c) = Ok (s2b "cakey") /\ bytes_ok body /\ ~ bad_padding (c_string body) /\
  rfc_decode (c_string body) = Some tbs /\ enrolls sc w (s2b "ca") (s2b "cakey") tbs out /\ plain_entry e /\ entry_text e line /\
  enroll_logged sc w c h seen now true log (Some i) body = Ok (200%Z, rfc_encode out, h', log ++ line).
Proof.
  destruct enroll_stranger_refuted as (sc & w & c & h & body & tbs & out & h' & SC & WO & W & PL & C1 & C2 & B & Ed & En & E).
  assert (NB : ~ bad_padding (c_string body)) by (intros Q; apply decode_bad in Q; destruct Q; congruence).
  destruct (enroll_log_exact sc w c _ _ h seen_case 1700000000 true (s2b "old") (Some (named (Some (s2b "A")) 1)) body SC W PL C1 C2 B NB) as (s & r & h1 & l & F1 & F2 & F3).
  rewrite enroll_anyone in F2. rewrite E in F2. injection F2 as <- <- <-. destruct F3 as [(Q & _)|(_ & tbs' & out' & G1 & G2 & G3 & [(i & l0 & e & line & _ & Q1 & Q2 & Q3 & Q4 & ->)|(_ & Q)])]; [congruence| |].
  - injection Q1 as <-. injection Q2 as <-. exists sc, w, c, h, seen_case, 1700000000%Z, (s2b "old"), (named (Some (s2b "A")) 1), body, tbs, out, h', e, line. do 10 (split; [assumption|]).
    rewrite <- (describes_fun _ _ _ _ _ (named_describes 1700000000 (Some (s2b "A")) 1 (Some (s2b "B")) 2) Q3) in *.
    split; [|split; [exact Q4|exact F1]]. repeat split; try (vm_compute; intuition discriminate).
  - exfalso. apply Q. split; [reflexivity|]. eexists _, _, _. split; [reflexivity|]. split; [reflexivity|]. apply named_describes.
Qed.
