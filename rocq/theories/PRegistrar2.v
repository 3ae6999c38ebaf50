(** Consequences and concrete runs of the registrar's endpoints. *)
From Coq Require Import Permutation.
From Verif Require Import Base PBase MOs MBase64 MSerialize MVoucher MCrypto MRequest MHeap MArray MVoucherHeap MConfig MHandlers SBase64 SHeap SArray SConfig SVoucher SRequest SHandlers
  PBase64 PHeap PArray PBlocks PConfig PConfigMore PCertFiles POwn PAcquire PAcquire2 PRequest PRequest2 PRequest3 PRequest4 PRequest5 PRequest6 PRequest7 PMasa PRegistrar PEnroll.
Open Scope N_scope.

Lemma nonce_fun : forall v n n', nonce_is v n -> nonce_is v n' -> n = n'.
Proof.
  intros v n n' H H'. unfold nonce_is in *. rewrite H in H'. destruct n, n'; cbv [ba_of ba_null] in H'; try congruence; discriminate.
Qed.
Lemma posts_fun : forall o w f v m cms cms', ossl_sane o -> registrar_posts o w f v m cms -> registrar_posts o w f v m cms' -> cms = cms'.
Proof.
  intros o w f v m cms cms' OS (t & s & i & tls & cert & key & vc & vs & ad & pvr & prox & n & A1 & A2 & A3 & A0 & A4 & A5 & A6 & A7 & A8 & A9 & A10 & A11 & A12 & A13 & A14 & A15 & A16)
    (t' & s' & i' & tls' & cert' & key' & vc' & vs' & ad' & pvr' & prox' & n' & B1 & B2 & B3 & B0 & B4 & B5 & B6 & B7 & B8 & B9 & B10 & B11 & B12 & B13 & B14 & B15 & B16).
  rewrite A1 in B1. injection B1 as <-. rewrite <- (serial_fun _ _ _ A2 B2) in *. rewrite A3 in B3. injection B3 as <-. rewrite A5 in B5. injection B5 as <-. rewrite A6 in B6. injection B6 as <-.
  rewrite <- (cert_list_fun _ _ _ _ A7 B7), <- (cert_list_fun _ _ _ _ A8 B8) in B10. rewrite <- (cert_list_fun _ _ _ _ A9 B9) in B16.
  rewrite <- (says_fun _ _ _ _ _ _ _ _ _ _ A10 B10) in *. rewrite <- (nonce_fun _ _ _ A15 B15) in *.
  apply (signed_voucher_sign _ _ _ _ _ _ _ (fun v H => pv2_unique v _ _ _ _ _ H)) in A16. apply (signed_voucher_sign _ _ _ _ _ _ _ (fun v H => pv2_unique v _ _ _ _ _ H)) in B16. congruence.
Qed.
Lemma posts_ready : forall o w f v m cms, registrar_posts o w f v m cms -> client_known (Some v) /\ registrar_ready w f.
Proof.
  intros o w f v m cms (t & s & i & tls & cert & key & vc & vs & ad & pvr & prox & n & A1 & A2 & A3 & A0 & A4 & A5 & A6 & A7 & A8 & A9 & _). split.
  - exists v, s. split; [reflexivity|]. split; [exact A2|congruence].
  - split; [congruence|]. split; [congruence|]. split; [congruence|]. split; [congruence|]. repeat (apply Forall_cons; [intros Q; eapply missing_list; eassumption|]). apply Forall_nil.
Qed.
Lemma posts_safe : forall o w f v m cms body, registrar_posts o w f v m cms -> rfc_decode (c_string body) = Some m -> ~ registrar_unsafe o w f (Some v) body.
Proof.
  intros o w f v m cms body (t & s & i & tls & cert & key & vc & vs & ad & pvr & prox & n & A1 & A2 & A3 & A0 & A4 & A5 & A6 & A7 & A8 & A9 & A10 & A11 & _) Ed (v' & s' & Q & _ & _ & [BP|(m' & ? & ? & ? & vc' & vs' & ? & pvr' & _ & B1 & _ & _ & _ & B2 & B3 & _ & B4 & B5)]).
  - apply decode_bad in BP. destruct BP as [BP _]. congruence.
  - rewrite Ed in B1. injection B1 as <-. rewrite <- (cert_list_fun _ _ _ _ A7 B2), <- (cert_list_fun _ _ _ _ A8 B3) in B4. rewrite <- (says_fun _ _ _ _ _ _ _ _ _ _ A10 B4) in B5. congruence.
Qed.

(** C44, completely. *)
Lemma registrar_forwards : forall o w c f post h v body m cms, ossl_sane o -> world_ok w -> heap_wf h -> plenty h -> registrar_config h c f -> bytes_ok body -> view_ok v ->
  rfc_decode (c_string body) = Some m -> registrar_posts o w f v m cms -> blen cms < SIZE_MAX / 4 ->
  exists h', registrar_requestvoucher o w c post h (Some v) body =
    Ok (let (status, response) := post (rfc_encode cms) in
        if (status <? 0)%Z then (502%Z, masa_unreachable) else if (status <? 400)%Z then (200%Z, response) else (200%Z, []), h').
Proof.
  intros o w c f post h v body m cms OS WO W PL RC B V Ed RP Ls.
  destruct (registrar_run o w c f post h (Some v) body OS WO W PL RC B) as [[U _]|[_ D]]; [intros v' Q; injection Q as <-; exact V|exfalso; exact (posts_safe _ _ _ _ _ _ _ RP Ed U)|].
  destruct D as (status & response & h' & E & _ & _ & A). exists h'. rewrite E. destruct (posts_ready _ _ _ _ _ _ RP) as [KN RD].
  destruct A as [(v' & m' & cms' & Q1 & Q2 & Q3 & A)|[(_ & [A|(_ & A)])|(_ & _ & A)]]; [|contradiction|exfalso; apply A; exists v, m, cms; auto|contradiction].
  injection Q1 as <-. rewrite Ed in Q2. injection Q2 as <-. rewrite <- (posts_fun _ _ _ _ _ _ _ OS RP Q3) in A. destruct (post (rfc_encode cms)) as [st0 resp0]. cbn [fst snd] in A.
  destruct (Z.ltb_spec st0 0); destruct (Z.ltb_spec st0 400);
    (destruct A as [(A1 & A2 & A3)|[(A1 & A2 & A3)|(A1 & [A2|A2] & A3)]]; subst; try reflexivity; lia).
Qed.

Lemma registrar_answers : forall o w c f post h peer body status response h', ossl_sane o -> world_ok w -> heap_wf h -> plenty h -> registrar_config h c f -> bytes_ok body -> (forall v, peer = Some v -> view_ok v) ->
  registrar_requestvoucher o w c post h peer body = Ok (status, response, h') -> registrar_answer o w f post peer body (status, response).
Proof.
  intros o w c f post h peer body status response h' OS WO W PL RC B V E. destruct (registrar_run o w c f post h peer body OS WO W PL RC B V) as [[_ [k Q]]|[_ (s & r & h1 & Q & _ & _ & A)]]; [congruence|].
  rewrite E in Q. injection Q as <- <- <-. exact A.
Qed.
Lemma registrar_no_client : forall o w c post h body, registrar_requestvoucher o w c post h None body = Ok (400%Z, [], h).
Proof. intros o w c post h body. unfold registrar_requestvoucher. rewrite c_str_ok. reflexivity. Qed.

(** C69. *)
Lemma registrar_survives_iff : forall o w c f post h peer body, ossl_sane o -> world_ok w -> heap_wf h -> plenty h -> registrar_config h c f -> bytes_ok body -> (forall v, peer = Some v -> view_ok v) ->
  ((exists k, registrar_requestvoucher o w c post h peer body = UB k) <-> registrar_unsafe o w f peer body).
Proof.
  intros o w c f post h peer body OS WO W PL RC B V. destruct (registrar_run o w c f post h peer body OS WO W PL RC B V) as [[U C]|[NU (s & r & h1 & Q & _)]]; [tauto|].
  split; [intros [k E]; congruence|intros U; contradiction].
Qed.
Lemma registrar_released : forall o w c f post h peer body status response h', ossl_sane o -> world_ok w -> heap_wf h -> plenty h -> registrar_config h c f -> bytes_ok body -> (forall v, peer = Some v -> view_ok v) ->
  registrar_requestvoucher o w c post h peer body = Ok (status, response, h') -> kept (hp_next h) h h' /\ no_leak (hp_next h) h'.
Proof.
  intros o w c f post h peer body status response h' OS WO W PL RC B V E. destruct (registrar_run o w c f post h peer body OS WO W PL RC B V) as [[_ [k Q]]|[_ (s & r & h1 & Q & X & S & A)]]; [congruence|].
  rewrite E in Q. injection Q as <- <- <-. split; [apply X|apply st_leak; exact S].
Qed.

(** *** A concrete registrar *)
Definition registrar_cells : list cell :=
  [Fresh; text (s2b "tls"); text (s2b "reg"); text (s2b "regkey")] ++ one_path 4 ++ [text (s2b "maker"); text (s2b "ca"); text (s2b "cakey")].
Definition registrar_case : heap := mk_heap 9 (cells registrar_cells) (fun _ => false).
Definition registrar_case_conf : registrar_conf := mk_rconf 1 2 3 0 4 0 7 8.
Definition registrar_case_files : registrar_files := mk_rfiles (s2b "tls") (s2b "reg") (s2b "regkey") [] [s2b "maker"] [].
Definition registrar_world : world :=
  mk_world (files_case [(s2b "tls", [2; 7]); (s2b "reg", [2; 0]); (s2b "maker", [1; 0]); (s2b "ca", [5; 0])]) (files_case [(s2b "regkey", [2]); (s2b "cakey", [5])]) (Some tm_case).
Definition pledge_view : cert_view :=
  mk_view (fun _ => Some None) (fun n => if beqb n (s2b "serialNumber") then Some (Some (s2b "A")) else Some None) (Some (s2b "maker CA")) (Some [1; 1]).
Definition pledge_cms : bytes :=
  match sign_pledge_voucher_request toy (Some tm_case) (Some (s2b "A")) (Some (ba_of [1; 2; 3])) (Some (ba_of [2; 7])) (id_cert 1) (id_key 1) None with Ok (Some c) => c | _ => [] end.
Definition pledge_body : bytes := rfc_encode pledge_cms.

Lemma registrar_world_ok : world_ok registrar_world.
Proof. split; apply files_ok; repeat (apply Forall_cons; [reflexivity|]); apply Forall_nil. Qed.
Lemma registrar_case_wf : heap_wf registrar_case.
Proof. apply cells_wf; [lia|vm_compute; lia|reflexivity]. Qed.
Lemma registrar_case_config : registrar_config registrar_case registrar_case_conf registrar_case_files.
Proof. split; [reflexivity|]. split; [reflexivity|]. split; [reflexivity|]. split; [left; split; reflexivity|]. split; [apply (one_path_list _ 4 6); vm_compute; reflexivity|]. left; split; reflexivity. Qed.
Lemma pledge_view_ok : forall v, Some pledge_view = Some v -> view_ok v.
Proof.
  intros v Q. injection Q as <-. split; [|split; [|split]]; cbn [pledge_view cv_issuer_entry cv_subject_entry cv_issuer_text cv_der].
  - intros n t Q. discriminate.
  - intros n t Q. destruct (beqb n (s2b "serialNumber")); [|discriminate]. injection Q as <-. apply bytes_okb_ok. reflexivity.
  - intros t Q. injection Q as <-. apply bytes_okb_ok. reflexivity.
  - intros t Q. injection Q as <-. apply bytes_okb_ok. reflexivity.
Qed.
Lemma pledge_body_ok : bytes_ok pledge_body.
Proof. apply bytes_okb_ok. vm_compute. reflexivity. Qed.

Definition refusing : post_fn := fun _ => (403%Z, s2b "no").
Lemma refusal_refuted : exists o w c f post h v body m cms h', ossl_sane o /\ world_ok w /\ heap_wf h /\ plenty h /\ registrar_config h c f /\ bytes_ok body /\ view_ok v /\
  rfc_decode (c_string body) = Some m /\ registrar_posts o w f v m cms /\ fst (post (rfc_encode cms)) = 403%Z /\
  registrar_requestvoucher o w c post h (Some v) body = Ok (200%Z, [], h').
Proof.
  destruct (registrar_requestvoucher toy registrar_world registrar_case_conf refusing registrar_case (Some pledge_view) pledge_body) as [[[s r] h']|k] eqn:E; [|exfalso; vm_compute in E; discriminate E].
  assert (SR : s = 200%Z /\ r = []). { assert (QQ : match registrar_requestvoucher toy registrar_world registrar_case_conf refusing registrar_case (Some pledge_view) pledge_body with Ok (s, r, _) => (s, r) | _ => (0%Z, []) end = (200%Z, [])) by (vm_compute; reflexivity). rewrite E in QQ. injection QQ; auto. }
  destruct SR as [-> ->].
  pose proof (registrar_answers toy registrar_world registrar_case_conf registrar_case_files refusing registrar_case (Some pledge_view) pledge_body _ _ _ toy_sane registrar_world_ok registrar_case_wf (fun a => eq_refl) registrar_case_config pledge_body_ok pledge_view_ok E) as A.
  destruct A as [(v & m & cms & Q1 & Q2 & Q3 & _)|[(Q & _)|(Q & _)]]; [|discriminate Q|discriminate Q]. injection Q1 as <-.
  exists toy, registrar_world, registrar_case_conf, registrar_case_files, refusing, registrar_case, pledge_view, pledge_body, m, cms, h'.
  split; [exact toy_sane|]. split; [exact registrar_world_ok|]. split; [exact registrar_case_wf|]. split; [intros a; reflexivity|]. split; [exact registrar_case_config|]. split; [exact pledge_body_ok|]. split; [exact (pledge_view_ok _ eq_refl)|].
  split; [exact Q2|]. split; [exact Q3|]. split; [reflexivity|exact E].
Qed.
Lemma registrar_survives_refuted : exists o w c f post h v body k, ossl_sane o /\ world_ok w /\ heap_wf h /\ plenty h /\ registrar_config h c f /\ bytes_ok body /\ view_ok v /\
  registrar_requestvoucher o w c post h (Some v) body = UB k.
Proof.
  exists toy, registrar_world, registrar_case_conf, registrar_case_files, refusing, registrar_case, pledge_view, (s2b "===="), DoubleFree.
  split; [exact toy_sane|]. split; [exact registrar_world_ok|]. split; [exact registrar_case_wf|]. split; [intros a; reflexivity|]. split; [exact registrar_case_config|]. split; [apply bytes_okb_ok; reflexivity|]. split; [exact (pledge_view_ok _ eq_refl)|].
  vm_compute. reflexivity.
Qed.

(** Enrolment. *)
Definition toy_sign : sign_cert_fn := fun k c tbs => match tbs with [] => None | x :: r => if bytes_okb (k ++ c ++ tbs) then Some (x :: k ++ r) else None end.
Lemma toy_sign_ok : forall k c tbs out, toy_sign k c tbs = Some out -> bytes_ok out.
Proof.
  intros k c [|x r] out H; [discriminate|]. cbn [toy_sign] in H. destruct (bytes_okb (k ++ c ++ x :: r)) eqn:E; [|discriminate]. injection H as <-. apply bytes_okb_ok in E. unfold bytes_ok in *. apply Forall_app in E. destruct E as [E1 E2]. apply Forall_app in E2. destruct E2 as [_ E2].
  inversion E2; subst. constructor; [assumption|]. apply Forall_app. auto.
Qed.
Lemma enroll_answers : forall sc w c cert key h peer body status response h', (forall k ct tbs out, sc k ct tbs = Some out -> bytes_ok out) ->
  heap_wf h -> plenty h -> heap_string h (rc_ca_cert c) = Ok cert -> heap_string h (rc_ca_key c) = Ok key -> bytes_ok body ->
  registrar_est_simpleenroll sc w c h peer body = Ok (status, response, h') -> enroll_answer sc w cert key body (status, response) /\ kept (hp_next h) h h' /\ no_leak (hp_next h) h'.
Proof.
  intros sc w c cert key h peer body status response h' SC W PL C1 C2 B E. destruct (enroll_run sc w c cert key h peer body SC W PL C1 C2 B) as [[_ [k Q]]|[_ (s & r & h1 & Q & X & S & A)]]; [congruence|].
  rewrite E in Q. injection Q as <- <- <-. split; [exact A|]. split; [apply X|apply st_leak; exact S].
Qed.
Lemma enroll_survives_iff : forall sc w c cert key h peer body, (forall k ct tbs out, sc k ct tbs = Some out -> bytes_ok out) ->
  heap_wf h -> plenty h -> heap_string h (rc_ca_cert c) = Ok cert -> heap_string h (rc_ca_key c) = Ok key -> bytes_ok body ->
  ((exists k, registrar_est_simpleenroll sc w c h peer body = UB k) <-> bad_padding (c_string body)).
Proof.
  intros sc w c cert key h peer body SC W PL C1 C2 B. destruct (enroll_run sc w c cert key h peer body SC W PL C1 C2 B) as [[U C]|[NU (s & r & h1 & Q & _)]]; [tauto|].
  split; [intros [k E]; congruence|intros U; contradiction].
Qed.
Lemma enroll_survives_refuted : exists sc w c h peer body k, (forall k ct tbs out, sc k ct tbs = Some out -> bytes_ok out) /\ world_ok w /\ heap_wf h /\ plenty h /\
  heap_string h (rc_ca_cert c) = Ok (s2b "ca") /\ heap_string h (rc_ca_key c) = Ok (s2b "cakey") /\ bytes_ok body /\ registrar_est_simpleenroll sc w c h peer body = UB k.
Proof.
  exists toy_sign, registrar_world, registrar_case_conf, registrar_case, None, (s2b "===="), DoubleFree. split; [exact toy_sign_ok|]. split; [exact registrar_world_ok|]. split; [exact registrar_case_wf|]. split; [intros a; reflexivity|].
  split; [reflexivity|]. split; [reflexivity|]. split; [apply bytes_okb_ok; reflexivity|]. vm_compute. reflexivity.
Qed.
Lemma enroll_stranger : forall sc w c cert key h body tbs out, (forall k ct tbs out, sc k ct tbs = Some out -> bytes_ok out) ->
  heap_wf h -> plenty h -> heap_string h (rc_ca_cert c) = Ok cert -> heap_string h (rc_ca_key c) = Ok key -> bytes_ok body ->
  rfc_decode (c_string body) = Some tbs -> enrolls sc w cert key tbs out -> blen out < SIZE_MAX / 4 ->
  exists h', registrar_est_simpleenroll sc w c h None body = Ok (200%Z, rfc_encode out, h').
Proof.
  intros sc w c cert key h body tbs out SC W PL C1 C2 B Ed EN Lo. destruct (enroll_run sc w c cert key h None body SC W PL C1 C2 B) as [[Q _]|[_ (s & r & h1 & Q & X & S & A)]]; [apply decode_bad in Q; destruct Q; congruence|].
  exists h1. rewrite Q. destruct A as [(tbs' & out' & A1 & A2 & _ & A3)|(_ & A)]; [|exfalso; apply A; exists tbs, out; auto]. rewrite Ed in A1. injection A1 as <-. injection A3 as -> ->.
  destruct EN as (c1 & k1 & E1 & E2 & E3), A2 as (c2 & k2 & F1 & F2 & F3). congruence.
Qed.
Lemma enroll_stranger_refuted : exists sc w c h body tbs out h', (forall k ct tbs out, sc k ct tbs = Some out -> bytes_ok out) /\ world_ok w /\ heap_wf h /\ plenty h /\
  heap_string h (rc_ca_cert c) = Ok (s2b "ca") /\ heap_string h (rc_ca_key c) = Ok (s2b "cakey") /\ bytes_ok body /\
  rfc_decode (c_string body) = Some tbs /\ enrolls sc w (s2b "ca") (s2b "cakey") tbs out /\ registrar_est_simpleenroll sc w c h None body = Ok (200%Z, rfc_encode out, h').
Proof.
  destruct (enroll_stranger toy_sign registrar_world registrar_case_conf (s2b "ca") (s2b "cakey") registrar_case (rfc_encode [9; 8; 7]) [9; 8; 7] [9; 5; 8; 7]) as [h' E];
    [exact toy_sign_ok|exact registrar_case_wf|intros a; reflexivity|reflexivity|reflexivity|apply bytes_okb_ok; reflexivity|reflexivity|exists [5; 0], [5]; auto|reflexivity|].
  exists toy_sign, registrar_world, registrar_case_conf, registrar_case, (rfc_encode [9; 8; 7]), [9; 8; 7], [9; 5; 8; 7], h'.
  split; [exact toy_sign_ok|]. split; [exact registrar_world_ok|]. split; [exact registrar_case_wf|]. split; [intros a; reflexivity|].
  split; [reflexivity|]. split; [reflexivity|]. split; [apply bytes_okb_ok; reflexivity|]. split; [reflexivity|]. split; [exists [5; 0], [5]; auto|exact E].
Qed.
