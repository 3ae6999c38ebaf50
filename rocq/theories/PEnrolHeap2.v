(** Proofs about a registrar that serves voucher requests and enrolments. *)
From Coq Require Import Permutation.
From Verif Require Import Base PBase MOs MBase64 MSerialize MVoucher MCrypto MRequest MHeap MArray MVoucherHeap MConfig MHandlers MEnrolLog MEnrolLogHeap MHandlerHeap MEnrolHeap
  SBase64 SHeap SArray SConfig SVoucher SRequest SHandlers SEnrolLog SEnrolLogHeap SHandlerHeap SEnrolHeap
  PBase64 PHeap PArray PBlocks PConfig POwn PAcquire PAcquire2 PRequest6 PMasa PEnroll PRegistrar2 PEnrolLog PEnrolLog2 PEnrolLogHeap PHold PHandlerHeap PHandlerHeap5 PHandlerHeap6 PEnrolHeap.
Open Scope N_scope.

Lemma enrolls_fun : forall sc w cert key tbs out out', SHandlers.enrolls sc w cert key tbs out -> SHandlers.enrolls sc w cert key tbs out' -> out = out'.
Proof. intros sc w cert key tbs out out' (c & k & A1 & A2 & A3) (c' & k' & B1 & B2 & B3). assert (c' = c) as -> by congruence. assert (k' = k) as -> by congruence. congruence. Qed.

(** One enrolment. *)
Lemma enrol_step : forall o sc w c f ca nn seen h log peer body now opens, (forall k ct tbs out, sc k ct tbs = Some out -> bytes_ok out) -> (forall d l, seen d = Some l -> short_view (cs_view l)) ->
  heap_wf h -> plenty h -> ca_config h c ca -> names_at (hp_next h) nn h -> arrival_ok o w f (Enrols peer body now opens) ->
  (bad_padding (c_string body) /\ exists k, full_est_simpleenroll sc w c nn seen now opens log h peer body = UB k) \/
  (~ bad_padding (c_string body) /\ exists status response h' log', full_est_simpleenroll sc w c nn seen now opens log h peer body = Ok (status, response, h', log') /\ ext h h' /\ hold (hp_next h) h' [] /\
     enroll_answer sc w (ca_cert ca) (ca_key ca) body (status, response) /\
     ((exists e line, enrols sc w ca seen (Enrols peer body now opens) e /\ entry_text e line /\ log' = log ++ line) \/ (log' = log /\ forall e, ~ enrols sc w ca seen (Enrols peer body now opens) e))).
Proof.
  intros o sc w c f ca nn seen h log peer body now opens SC SE W PL [Cc Ck] NA [B SP].
  destruct (full_enroll_run sc w c _ _ nn seen now opens log h peer body SC SE SP W PL NA Cc Ck B) as [L|[NB (s & r & h1 & h2 & log' & E1 & E2 & X & S)]]; [left; exact L|right]. split; [exact NB|].
  exists s, r, h1, log'. split; [exact E1|]. split; [exact X|]. split; [exact (st_hold _ _ _ S)|].
  destruct (enroll_log_exact sc w c _ _ h seen now opens log peer body SC W PL Cc Ck B NB) as (s' & r' & h3 & l3 & F1 & F2 & F3). rewrite E2 in F1. injection F1 as <- <- <- <-.
  destruct (enroll_run sc w c _ _ h (option_map cs_view peer) body SC W PL Cc Ck B) as [[Q _]|[_ (s' & r' & h4 & Q & _ & _ & A)]]; [contradiction|]. rewrite Q in F2. injection F2 as -> -> _.
  split; [exact A|]. destruct F3 as [(Q1 & ->)|(-> & tbs & out & Q1 & Q2 & -> & Q3)].
  - right. split; [reflexivity|]. intros e (i & b & n & tbs & out & l & Ea & Ed & En & Lo & _). injection Ea as -> -> -> ->. destruct A as [(? & ? & _ & _ & _ & A)|(_ & A)]; [congruence|]. apply A. exists tbs, out. auto.
  - destruct Q3 as [(i & l & e & line & -> & -> & Sl & D & T & ->)|(-> & Q3)].
    + left. exists e, line. split; [|split; [exact T|reflexivity]]. exists i, body, now, tbs, out, l. split; [reflexivity|]. split; [exact Q1|]. split; [exact Q2|]. split; [|split; [exact Sl|exact D]].
      destruct A as [(t' & o' & A1 & A2 & A3 & _)|(A & _)]; [|discriminate]. assert (t' = tbs) as -> by congruence. rewrite (enrolls_fun _ _ _ _ _ _ _ Q2 A2). exact A3.
    + right. split; [reflexivity|]. intros e (i & b & n & t' & o' & l & Ea & Ed & En & Lo & Sl & D). injection Ea as -> -> -> ->. apply Q3. split; [reflexivity|]. exists i, l, e. split; [reflexivity|]. split; [|exact D].
      assert (t' = tbs) as -> by congruence. rewrite (enrolls_fun _ _ _ _ _ _ _ Q2 En). exact Sl.
Qed.

Lemma ext_ca : forall h h' c ca, heap_wf h -> ext h h' -> ca_config h c ca -> ca_config h' c ca.
Proof. intros h h' c ca W X [A B]. split; eapply ext_string; eassumption. Qed.

Lemma works_run : forall o sc w c f ca nn seen post l h log, ossl_sane o -> world_ok w -> (forall k ct tbs out, sc k ct tbs = Some out -> bytes_ok out) -> (forall d l, seen d = Some l -> short_view (cs_view l)) ->
  heap_wf h -> plenty h -> registrar_config h c f -> ca_config h c ca -> names_at (hp_next h) nn h -> Forall (arrival_ok o w f) l ->
  (Exists (fatal o w f) l /\ exists k, registrar_works o sc w c nn seen post h log l = UB k) \/
  (~ Exists (fatal o w f) l /\ exists answers h' log' lk, registrar_works o sc w c nn seen post h log l = Ok (answers, h', log') /\ ext h h' /\ hold (hp_next h) h' lk /\ (Forall (arrival_clean o w f) l -> lk = []) /\
     Forall2 (right_answer o sc w f ca post) l answers /\ recorded sc w ca seen l log log').
Proof.
  intros o sc w c f ca nn seen post l. induction l as [|a r IH]; intros h log OS WO SC SE W PL RC CC NA AO.
  { right. split; [intros Q; inversion Q|]. exists [], h, log, []. split; [reflexivity|]. split; [apply ext_refl; exact W|]. split; [apply hold_init; exact W|]. split; [reflexivity|]. split; constructor. }
  apply Forall_cons_iff in AO. destruct AO as [AO1 AO2]. cbn [registrar_works].
  assert (STEP : (fatal o w f a /\ exists k, match a with
            | Asks peer body => obind (full_registrar_requestvoucher o w c nn post h (option_map cs_view peer) body) (fun x => Ok (x, log))
            | Enrols peer body now opens => full_est_simpleenroll sc w c nn seen now opens log h peer body
            end = UB k) \/
     (~ fatal o w f a /\ exists s1 r1 h1 log1 lk1, match a with
            | Asks peer body => obind (full_registrar_requestvoucher o w c nn post h (option_map cs_view peer) body) (fun x => Ok (x, log))
            | Enrols peer body now opens => full_est_simpleenroll sc w c nn seen now opens log h peer body
            end = Ok (s1, r1, h1, log1) /\ ext h h1 /\ hold (hp_next h) h1 lk1 /\ (arrival_clean o w f a -> lk1 = []) /\ right_answer o sc w f ca post a (s1, r1) /\
       ((exists e line, enrols sc w ca seen a e /\ entry_text e line /\ log1 = log ++ line) \/ (log1 = log /\ forall e, ~ enrols sc w ca seen a e)))).
  { destruct a as [peer body|peer body now opens].
    - destruct AO1 as (B1 & V1 & F1). cbn [fst snd] in *. destruct (full_registrar_run o w c f nn post h _ body OS WO W PL RC B1 NA V1 F1) as [[C [k E]]|[NC (s1 & r1 & h1 & lk1 & E & X & S & Cl & A)]]; rewrite E; cbn [obind].
      + left. split; [exact C|]. exists k. reflexivity.
      + right. split; [exact NC|]. exists s1, r1, h1, log, lk1. split; [reflexivity|]. split; [exact X|]. split; [exact S|]. split; [exact Cl|]. split; [exact A|]. right. split; [reflexivity|].
        intros e (i & b & n & tbs & out & l & Ea & _). discriminate.
    - destruct (enrol_step o sc w c f ca nn seen h log peer body now opens SC SE W PL CC NA AO1) as [C|[NC (s1 & r1 & h1 & log1 & E & X & S & A & G)]]; [left; exact C|].
      right. split; [exact NC|]. exists s1, r1, h1, log1, []. split; [exact E|]. split; [exact X|]. split; [exact S|]. split; [reflexivity|]. split; [exact A|exact G]. }
  destruct STEP as [[C [k E]]|[NC (s1 & r1 & h1 & log1 & lk1 & E & X & S & Cl & A & G)]]; rewrite E; cbn [obind].
  { left. split; [apply Exists_cons_hd; exact C|]. exists k. reflexivity. }
  destruct (IH h1 log1 OS WO SC SE (proj1 X) (ext_plenty _ _ X PL) (ext_rconfig _ _ _ _ W X RC) (ext_ca _ _ _ _ W X CC) (ext_names _ _ _ X NA) AO2) as [[C [k E2]]|[NC2 (ans & h2 & log2 & lk2 & E2 & X2 & S2 & Cl2 & F2 & R2)]]; rewrite E2; cbn [obind].
  - left. split; [apply Exists_cons_tl; exact C|]. exists k. reflexivity.
  - right. split; [intros Q; inversion Q; subst; contradiction|]. exists ((s1, r1) :: ans), h2, log2, (lk2 ++ lk1). split; [reflexivity|]. split; [eapply ext_trans; eassumption|]. split; [eapply hold_grow; eassumption|].
    split; [intros Q; apply Forall_cons_iff in Q; destruct Q as [Q1 Q2]; rewrite Cl, Cl2 by assumption; reflexivity|]. split; [constructor; assumption|].
    destruct G as [(e & line & G1 & G2 & ->)|(-> & G)]; [eapply recorded_entry; eassumption|apply recorded_skip; assumption].
Qed.

Lemma works_exact : forall o sc w c f ca nn seen post l h log, ossl_sane o -> world_ok w -> (forall k ct tbs out, sc k ct tbs = Some out -> bytes_ok out) -> (forall d l, seen d = Some l -> short_view (cs_view l)) ->
  heap_wf h -> plenty h -> registrar_config h c f -> ca_config h c ca -> names_at (hp_next h) nn h -> Forall (arrival_ok o w f) l ->
  ((exists k, registrar_works o sc w c nn seen post h log l = UB k) <-> Exists (fatal o w f) l).
Proof.
  intros o sc w c f ca nn seen post l h log OS WO SC SE W PL RC CC NA AO. destruct (works_run o sc w c f ca nn seen post l h log OS WO SC SE W PL RC CC NA AO) as [[C U]|[NC (a & h' & log' & lk & E & _)]]; [tauto|].
  split; [intros [k Q]; congruence|intros Q; contradiction].
Qed.
Lemma works_answers : forall o sc w c f ca nn seen post l h log answers h' log', ossl_sane o -> world_ok w -> (forall k ct tbs out, sc k ct tbs = Some out -> bytes_ok out) -> (forall d l, seen d = Some l -> short_view (cs_view l)) ->
  heap_wf h -> plenty h -> registrar_config h c f -> ca_config h c ca -> names_at (hp_next h) nn h -> Forall (arrival_ok o w f) l ->
  registrar_works o sc w c nn seen post h log l = Ok (answers, h', log') ->
  Forall2 (right_answer o sc w f ca post) l answers /\ recorded sc w ca seen l log log' /\ kept (hp_next h) h h' /\ (Forall (arrival_clean o w f) l -> no_leak (hp_next h) h').
Proof.
  intros o sc w c f ca nn seen post l h log answers h' log' OS WO SC SE W PL RC CC NA AO E. destruct (works_run o sc w c f ca nn seen post l h log OS WO SC SE W PL RC CC NA AO) as [[_ [k Q]]|[_ (a & h1 & log1 & lk & E1 & X & HK & Cl & A & R)]]; [congruence|].
  rewrite E in E1. injection E1 as <- <- <-. split; [exact A|]. split; [exact R|]. split; [apply X|]. intros C. rewrite (Cl C) in HK. apply hold_none. exact HK.
Qed.

(** *** A registrar at work: a voucher request, an enrolment, a refused enrolment, and again. *)
Definition client : cert_seen := mk_seen pledge_view 1.
Definition seen_new (d : bytes) : option cert_seen := match d with [] => None | x :: _ => Some (named (Some (s2b "B")) (Z.of_N x)) end.
Lemma seen_new_short : forall d l, seen_new d = Some l -> short_view (cs_view l).
Proof. intros [|x d] l Q; [discriminate|]. injection Q as <-. apply named_short. intros s E. injection E as <-. reflexivity. Qed.
Definition day (m : bytes) : list arrival :=
  [Asks (Some client) (rfc_encode m); Enrols (Some client) (rfc_encode [9; 8; 7]) 1700000000 true; Enrols None (rfc_encode [9]) 1700000001 true; Enrols (Some client) (s2b "!") 1700000002 true;
   Asks (Some client) (rfc_encode m); Enrols (Some client) (rfc_encode [4]) 1700000003 true].
Definition day_log : bytes := s2b "1700000000 0x1 ""A"" 0x9 ""B""" ++ [10] ++ s2b "1700000003 0x1 ""A"" 0x4 ""B""" ++ [10].
Definition day_answers : list (Z * bytes) :=
  [(200%Z, s2b "voucher"); (200%Z, rfc_encode [9; 5; 8; 7]); (200%Z, rfc_encode [9; 5]); (400%Z, []); (200%Z, s2b "voucher"); (200%Z, rfc_encode [4; 5])].
Definition ca_case : ca_files := mk_ca (s2b "ca") (s2b "cakey").
Lemma day_ok : forall m, m = again \/ m = once -> Forall (arrival_ok toy registrar_world registrar_case_files) (day m).
Proof.
  intros m Hm. pose proof (rok m Hm) as RO. assert (EN : forall b n x, bytes_okb b = true -> arrival_ok toy registrar_world registrar_case_files (Enrols (Some client) b n x)).
  { intros b n x Hb. split; [apply bytes_okb_ok; exact Hb|]. intros i Q. injection Q as <-. exact pledge_view_short. }
  unfold day. repeat (apply Forall_cons; [first [exact RO|apply EN; vm_compute; reflexivity|split; [apply bytes_okb_ok; vm_compute; reflexivity|intros i Q; discriminate]]|]). apply Forall_nil.
Qed.
Lemma ca_case_config : ca_config full_case registrar_case_conf ca_case.
Proof. split; vm_compute; reflexivity. Qed.

Lemma works_case : exists h', registrar_works toy toy_sign registrar_world registrar_case_conf nn_full seen_new granting full_case [] (day once) = Ok (day_answers, h', day_log) /\ no_leak (hp_next full_case) h'.
Proof.
  destruct (registrar_works toy toy_sign registrar_world registrar_case_conf nn_full seen_new granting full_case [] (day once)) as [[[a h'] lg]|k] eqn:E.
  - assert (QQ : match registrar_works toy toy_sign registrar_world registrar_case_conf nn_full seen_new granting full_case [] (day once) with Ok (a, _, l) => (a, l) | _ => ([], []) end = (day_answers, day_log)) by (vm_compute; reflexivity).
    rewrite E in QQ. injection QQ as -> ->. exists h'. split; [reflexivity|].
    eapply works_answers; [exact toy_sane|exact registrar_world_ok|exact toy_sign_ok|exact seen_new_short|exact full_case_wf|intros x; reflexivity|exact full_case_config|exact ca_case_config|exact full_case_names|exact (day_ok once (or_intror eq_refl))|exact E|].
    pose proof once_clean. unfold day. repeat (apply Forall_cons; [first [assumption|exact Logic.I]|]). apply Forall_nil.
  - exfalso. assert (QQ : match registrar_works toy toy_sign registrar_world registrar_case_conf nn_full seen_new granting full_case [] (day once) with Ok _ => true | _ => false end = true) by (vm_compute; reflexivity). rewrite E in QQ. discriminate QQ.
Qed.

Lemma works_refuted : exists o sc w c f ca nn seen post h log l answers h' log', ossl_sane o /\ world_ok w /\ (forall k ct tbs out, sc k ct tbs = Some out -> bytes_ok out) /\ (forall d l, seen d = Some l -> short_view (cs_view l)) /\
  heap_wf h /\ plenty h /\ registrar_config h c f /\ ca_config h c ca /\ names_at (hp_next h) nn h /\ Forall (arrival_ok o w f) l /\
  registrar_works o sc w c nn seen post h log l = Ok (answers, h', log') /\ lost h h' 2.
Proof.
  set (h' := match registrar_works toy toy_sign registrar_world registrar_case_conf nn_full seen_new granting full_case [] (day again) with Ok (_, h, _) => h | _ => full_case end).
  exists toy, toy_sign, registrar_world, registrar_case_conf, registrar_case_files, ca_case, nn_full, seen_new, granting, full_case, [], (day again), day_answers, h', day_log.
  split; [exact toy_sane|]. split; [exact registrar_world_ok|]. split; [exact toy_sign_ok|]. split; [exact seen_new_short|]. split; [exact full_case_wf|]. split; [intros a; reflexivity|]. split; [exact full_case_config|]. split; [exact ca_case_config|].
  split; [exact full_case_names|]. split; [exact (day_ok again (or_introl eq_refl))|]. split; [vm_compute; reflexivity|].
  exists [45; 175]. split; [repeat constructor; cbn [In]; intuition discriminate|]. split; [reflexivity|].
  repeat (apply Forall_cons; [split; [vm_compute; discriminate|eexists; vm_compute; reflexivity]|]). apply Forall_nil.
Qed.
