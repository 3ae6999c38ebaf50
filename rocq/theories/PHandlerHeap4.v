(** The registrar's voucher endpoint with the memory of request.c. *)
From Coq Require Import Permutation ZifyBool ZifyNat ZifyN.
From Verif Require Import Base PBase MOs MBase64 MSerialize MVoucher MCrypto MRequest MHeap MArray MVoucherHeap MConfig MHandlers MSerialHeap MRequestHeap MHandlerHeap
  SBase64 SHeap SArray SConfig SVoucher SRequest SHandlers SSerialHeap SRequestHeap SHandlerHeap
  PBase64 PHeap PArray PBlocks PConfig PConfigMore PCertFiles POwn PHold PVoucherHeap PVoucherHeapOom PAcquire PAcquire2 PRequest PRequest2 PRequest3 PRequest4 PRequest5 PRequest6 PRequest7 PMasa PRegistrar
  PRequestHeap PRequestHeap2 PRequestHeap3 PRequestHeap4 PRequestHeap6 PRequestHeap9 PHandlerHeap PHandlerHeap2.
Open Scope N_scope.

(** The call of MHandlers, as an argument of the handler. *)
Definition registrar_sign_values (o : ossl) (serial : bytes) : registrar_sign_fn := fun h rc arr pcms created_on issuer tls cert key pv ps add =>
  obind (h_barray h issuer) (fun bissuer => obind (h_barray h tls) (fun btls => obind (h_barray h cert) (fun bcert => obind (h_barray h key) (fun bkey =>
  obind (h_certlist h pv) (fun lpv => obind (h_certlist h ps) (fun lps => obind (h_certlist h add) (fun ladd =>
  obind (with_cms h rc arr (fun b => sign_voucher_request o b (Some created_on) (Some serial) bissuer btls bcert bkey lpv lps ladd)) (fun v =>
  match v with None => Ok (0, h) | Some v => h_new_array h (Some v) end)))))))).

Lemma registrar_values : forall o w c post h peer body i sub s, crypto_getcert_meta peer = Ok (Some (i, sub)) -> crypto_getcert_serial sub = Some s ->
  registrar_requestvoucher o w c post h peer body = registrar_handler (registrar_sign_values o s) w c post h peer (c_string body).
Proof.
  intros o w c post h peer body i sub s Em Es. unfold registrar_requestvoucher, registrar_handler, registrar_sign_values. rewrite c_str_ok. cbn [obind]. cbv zeta. rewrite Em. cbn [obind]. rewrite Es.
  same [issuer h0]. destruct (issuer =? 0); [reflexivity|]. destruct (alloc h0 _) as [pcms h1]. destruct (pcms =? 0); [reflexivity|]. same [[rc arr] h2]. same h3. same h4. destruct (w_now w) as [now|]; [|reflexivity].
  same [tls h5]. destruct (tls =? 0); [reflexivity|]. same [cert h6]. destruct (cert =? 0); [reflexivity|]. same [key h7]. destruct (key =? 0); [reflexivity|].
  same [[z pv] h8]. destruct (z <? 0)%Z; [reflexivity|]. same [[z1 ps] h9]. destruct (z1 <? 0)%Z; [reflexivity|]. same [[z2 ad] h10]. destruct (z2 <? 0)%Z; [reflexivity|].
  destruct (h_barray h10 issuer); cbn [obind]; [|reflexivity]. destruct (h_barray h10 tls); cbn [obind]; [|reflexivity]. destruct (h_barray h10 cert); cbn [obind]; [|reflexivity]. destruct (h_barray h10 key); cbn [obind]; [|reflexivity].
  destruct (h_certlist h10 pv); cbn [obind]; [|reflexivity]. destruct (h_certlist h10 ps); cbn [obind]; [|reflexivity]. destruct (h_certlist h10 ad); cbn [obind]; [|reflexivity].
  destruct (with_cms _ _ _ _) as [[v|]|]; cbn [obind]; [|reflexivity|reflexivity]. destruct (h_new_array h10 (Some v)) as [[vo h11]|]; cbn [obind]; reflexivity.
Qed.

(** What comes after the call. *)
Definition registrar_tail (post : post_fn) (vars : list owned) (x : N * heap) : outcome (Z * bytes * heap) :=
  let (vr, h) := x in
  let ret h status response vars := obind (cleanup h vars) (fun h => Ok (status, response, h)) in
  if vr =? 0 then ret h 400%Z [] vars
  else obind (post_voucher_request post h vr) (fun y =>
    let '(z, response, h) := y in
    if (z <? 0)%Z then ret h 502%Z masa_unreachable (OArr vr :: vars)
    else ret h 200%Z (match response with None => [] | Some r => r end) (OArr vr :: vars)).

(** The state in which request.c is called. *)
Definition registrar_reached (w : world) (c : registrar_conf) (f : registrar_files) (post : post_fn) (v : cert_view) (h : heap) (body : bytes) : Prop :=
  exists t m it issuer pcms arr dtls tls dcert cert dkey key pv lpv ps lps ad lad h7 l,
    w_now w = Some t /\ cv_issuer_text v = Some it /\ rfc_decode (c_string body) = Some m /\
    w_cert w (rf_tls f) = Some dtls /\ w_cert w (rf_cert f) = Some dcert /\ w_key w (rf_key f) = Some dkey /\
    cert_list (w_cert w) (rf_verify f) lpv /\ cert_list (w_cert w) (rf_store f) lps /\ cert_list (w_cert w) (rf_add f) lad /\
    ext h h7 /\ st (hp_next h) h7 l /\ map fst l = [OList ad; OList ps; OList pv; OArr key; OArr cert; OArr tls; OArr pcms; OArr issuer] /\
    array_at h7 (pcms, 0%nat) (Some (ba_of m)) /\ array_at h7 (issuer, 0%nat) (Some (issuer_ba it)) /\
    array_at h7 (tls, 0%nat) (Some (ba_of dtls)) /\ array_at h7 (cert, 0%nat) (Some (ba_of dcert)) /\ array_at h7 (key, 0%nat) (Some (ba_of dkey)) /\
    h_certlist h7 pv = Ok lpv /\ h_certlist h7 ps = Ok lps /\ h_certlist h7 ad = Ok lad /\
    forall sign, registrar_handler sign w c post h (Some v) (c_string body) =
      obind (sign h7 (Z.of_N (blen m)) arr pcms t issuer tls cert key pv ps ad) (registrar_tail post (map fst l)).

Lemma issuer_comes : forall h v t, heap_wf h -> plenty h -> cv_issuer_text v = Some t ->
  exists c h', crypto_getcert_issuer h (Some v) = Ok (c, h') /\ c <> 0 /\ arrived h h' (OArr c) /\ h_barray h' c = Ok (Some (issuer_ba t)) /\ array_at h' (c, 0%nat) (Some (issuer_ba t)).
Proof.
  intros h v t W PL E. destruct t as [|x t].
  - unfold crypto_getcert_issuer. rewrite E. unfold h_new_array. destruct (plenty_alloc h (Struct [P 0; I 0]) W PL) as (a & h1 & E1 & A0 & A & Hn1 & Ca & Cx1 & Ex1 & O1). rewrite E1, (proj2 (N.eqb_neq _ _) A0). exists a, h1. split; [reflexivity|]. split; [exact A0|].
    split; [apply (arr_one h h1 a 0%Z); try assumption; try lia; apply Ex1|]. split; [unfold h_barray; rewrite (proj2 (N.eqb_neq _ _) A0); rewrite (get_ptr_cell _ _ 0%nat _ 0 A0 Ca eq_refl); cbn [obind]; rewrite (get_int_cell _ _ 1%nat _ _ A0 Ca eq_refl); reflexivity|].
    split; [exact A0|]. exists [P 0; I 0], 0. cbn [fst snd]. split; [exact Ca|]. split; [reflexivity|]. split; [reflexivity|]. cbn. auto.
  - unfold crypto_getcert_issuer. rewrite E. exact (new_array_comes h (x :: t) W PL).
Qed.
Lemma set_two : forall h p a z h3 h4, set_field h p 0 (P a) = Ok h3 -> set_field h3 p 1 (I z) = Ok h4 -> exists fs, hp_cell h4 p = Live (Struct fs) /\ nth_error fs 0 = Some (P a) /\ nth_error fs 1 = Some (I z).
Proof.
  intros h p a z h3 h4 E3 E4. unfold set_field in E3. destruct (load h p) as [fs|] eqn:L; cbn [obind] in E3; [|discriminate]. destruct fs as [|x fs]; [discriminate|]. cbn [nth_error set_nthv] in E3. injection E3 as <-.
  unfold set_field in E4. assert (P0 : p <> 0) by (intros ->; discriminate L). unfold load in E4. rewrite (proj2 (N.eqb_neq _ _) P0), put_same in E4. cbn [obind] in E4. destruct fs as [|y fs]; [discriminate|]. cbn [nth_error set_nthv] in E4. injection E4 as <-.
  eexists. split; [apply put_same|]. split; reflexivity.
Qed.
Lemma decoded_at : forall h src p rc arr h2 h3 h4 d, p <> 0 -> set_field h2 p 0 (P arr) = Ok h3 -> set_field h3 p 1 (I rc) = Ok h4 -> decoded_into h src p rc arr h3 h4 -> rfc_decode src = Some d -> array_at h4 (p, 0%nat) (Some (ba_of d)).
Proof.
  intros h src p rc arr h2 h3 h4 d P0 E3 E4 D Ed. unfold decoded_into in D. rewrite Ed in D. destruct D as (-> & A0 & _ & L & _). destruct (set_two _ _ _ _ _ _ E3 E4) as (fs & C & F0 & F1).
  split; [exact P0|]. exists fs, arr. cbn [fst snd ba_of ba_len ba_data]. split; [exact C|]. split; [exact F0|]. split; [exact F1|]. destruct (ok_live_buf _ _ _ L) as [_ Cc]. split; [exact A0|]. split; [exact Cc|lia].
Qed.

Lemma registrar_reach : forall s1 s2 w c f post v h body, heap_wf h -> plenty h -> registrar_config h c f -> bytes_ok body ->
  (forall h rc arr pcms t issuer tls cert key pv ps add x1 x2 x3 x4 x5 x6 x7, (rc < 0)%Z -> h_barray h issuer = Ok x1 -> h_barray h tls = Ok x2 -> h_barray h cert = Ok x3 -> h_barray h key = Ok x4 -> h_certlist h pv = Ok x5 -> h_certlist h ps = Ok x6 -> h_certlist h add = Ok x7 ->
     s1 h rc arr pcms t issuer tls cert key pv ps add = s2 h rc arr pcms t issuer tls cert key pv ps add) ->
  registrar_handler s1 w c post h (Some v) (c_string body) = registrar_handler s2 w c post h (Some v) (c_string body) \/ registrar_reached w c f post v h body.
Proof.
  intros s1 s2 w c f post v h body W PL (Ctl & Cce & Cke & Cve & Cst & Cad) B SS.
  assert (HU : forall sg, registrar_handler sg w c post h (Some v) (c_string body) = registrar_handler sg w c post h (Some v) (c_string body)) by reflexivity.
  unfold registrar_handler at 2 in HU. unfold registrar_handler at 1 2. cbv zeta in HU |- *.
  pose proof (st_init h W) as S0. set (base := hp_next h) in *.
  destruct (cv_issuer_text v) as [it|] eqn:Ei; [|left; unfold crypto_getcert_issuer; rewrite Ei; reflexivity].
  destruct (issuer_comes h v it W PL Ei) as (issuer & h0 & E0 & I0 & A0 & B0 & T0). rewrite E0 in HU |- *. cbn [obind] in HU |- *. rewrite (proj2 (N.eqb_neq _ _) I0) in HU |- *.
  pose proof (proj1 A0) as Ex0. pose proof (proj1 Ex0) as W0. pose proof (ext_plenty _ _ Ex0 PL) as PL0.
  destruct (decode_into h0 (c_string body) W0 PL0 (c_string_bytes _ B)) as (pcms & hx & rc & arr & hy & hz & h1 & Q1 & P0 & _ & Q2 & Q3 & Q4 & D).
  rewrite Q1 in HU |- *. rewrite (proj2 (N.eqb_neq _ _) P0) in HU |- *. rewrite Q2 in HU |- *. cbn [obind] in HU |- *. rewrite Q3 in HU |- *. cbn [obind] in HU |- *. rewrite Q4 in HU |- *. cbn [obind] in HU |- *.
  pose proof (fun d => decoded_at _ _ _ _ _ _ _ _ d P0 Q3 Q4 D) as T1. clear Q1 Q2 Q3 Q4.
  assert (DD : ext h0 h1 /\ ((rc < 0)%Z \/ exists m, rfc_decode (c_string body) = Some m /\ rc = Z.of_N (blen m) /\ arrived h0 h1 (OArr pcms))).
  { unfold decoded_into in D. destruct (rfc_decode (c_string body)) as [d|]; [destruct D as (-> & _ & A & _); split; [apply A|right; exists d; auto]|].
    destruct D as [-> D]. destruct (filter b64_relevant (c_string body)); [destruct D as (_ & _ & A); split; [apply A|left; lia]|]. destruct D as (_ & _ & X & _). split; [exact X|left; lia]. }
  clear D. destruct DD as [Ex01 DD]. pose proof (ext_trans _ _ _ Ex0 Ex01) as Ex1. pose proof (proj1 Ex1) as W1. pose proof (ext_plenty _ _ Ex1 PL) as PL1.
  destruct (w_now w) as [now|] eqn:Enow; [|left; reflexivity].
  pose proof (cert_comes (w_cert w) h1 _ _ W1 PL1 (ext_string _ _ _ _ W Ex1 Ctl)) as D2. unfold h_file_to_cert, h_file_to_keybuf in HU |- *. destruct (w_cert w (rf_tls f)) as [dtls|] eqn:Eltls; [|rewrite D2; left; reflexivity].
  destruct D2 as (tls & h2 & E2 & tls0 & A2 & B2 & T2). rewrite E2 in HU |- *. cbn [obind] in HU |- *. rewrite (proj2 (N.eqb_neq _ _) tls0) in HU |- *. pose proof (ext_trans _ _ _ Ex1 (proj1 A2)) as Ex2. pose proof (proj1 Ex2) as W2. pose proof (ext_plenty _ _ Ex2 PL) as PL2.
  pose proof (cert_comes (w_cert w) h2 _ _ W2 PL2 (ext_string _ _ _ _ W Ex2 Cce)) as D3. destruct (w_cert w (rf_cert f)) as [dcert|] eqn:Elcert; [|rewrite D3; left; reflexivity].
  destruct D3 as (cert & h3 & E3 & cert0 & A3 & B3 & T3). rewrite E3 in HU |- *. cbn [obind] in HU |- *. rewrite (proj2 (N.eqb_neq _ _) cert0) in HU |- *. pose proof (ext_trans _ _ _ Ex2 (proj1 A3)) as Ex3. pose proof (proj1 Ex3) as W3. pose proof (ext_plenty _ _ Ex3 PL) as PL3.
  pose proof (cert_comes (w_key w) h3 _ _ W3 PL3 (ext_string _ _ _ _ W Ex3 Cke)) as D4. destruct (w_key w (rf_key f)) as [dkey|] eqn:Elkey; [|rewrite D4; left; reflexivity].
  destruct D4 as (key & h4 & E4 & key0 & A4 & B4 & T4). rewrite E4 in HU |- *. cbn [obind] in HU |- *. rewrite (proj2 (N.eqb_neq _ _) key0) in HU |- *. pose proof (ext_trans _ _ _ Ex3 (proj1 A4)) as Ex4. pose proof (proj1 Ex4) as W4. pose proof (ext_plenty _ _ Ex4 PL) as PL4.
  destruct (list_arrives (w_cert w) h4 _ _ W4 PL4 (ext_path_list _ _ _ _ W Ex4 Cve)) as [(pv & h5 & lpv & E5 & A5 & B5 & CLpv & _)|(pv & h5 & E5 & _)]; rewrite E5 in HU |- *; cbn [obind] in HU |- *; [|left; reflexivity].
  change ((0 <? 0)%Z) with false in HU |- *. cbv iota in HU |- *. pose proof (ext_trans _ _ _ Ex4 (proj1 A5)) as Ex5. pose proof (proj1 Ex5) as W5. pose proof (ext_plenty _ _ Ex5 PL) as PL5.
  destruct (list_arrives (w_cert w) h5 _ _ W5 PL5 (ext_path_list _ _ _ _ W Ex5 Cst)) as [(ps & h6 & lps & E6 & A6 & B6 & CLps & _)|(ps & h6 & E6 & _)]; rewrite E6 in HU |- *; cbn [obind] in HU |- *; [|left; reflexivity].
  change ((0 <? 0)%Z) with false in HU |- *. cbv iota in HU |- *. pose proof (ext_trans _ _ _ Ex5 (proj1 A6)) as Ex6. pose proof (proj1 Ex6) as W6. pose proof (ext_plenty _ _ Ex6 PL) as PL6.
  destruct (list_arrives (w_cert w) h6 _ _ W6 PL6 (ext_path_list _ _ _ _ W Ex6 Cad)) as [(ad & h7 & lad & E7 & A7 & B7 & CLad & _)|(ad & h7 & E7 & _)]; rewrite E7 in HU |- *; cbn [obind] in HU |- *; [|left; reflexivity].
  change ((0 <? 0)%Z) with false in HU |- *. cbv iota in HU |- *. pose proof (ext_trans _ _ _ Ex6 (proj1 A7)) as Ex7.
  pose proof (ext_trans _ _ _ (proj1 A6) (proj1 A7)) as X57. pose proof (ext_trans _ _ _ (proj1 A5) X57) as X47. pose proof (ext_trans _ _ _ (proj1 A4) X47) as X37. pose proof (ext_trans _ _ _ (proj1 A3) X37) as X27. pose proof (ext_trans _ _ _ (proj1 A2) X27) as X17.
  pose proof (ext_trans _ _ _ Ex01 X17) as X07.
  destruct DD as [NEG|(m & Ed & -> & A1)].
  { left. erewrite (SS h7 rc arr pcms now issuer tls cert key pv ps ad); [reflexivity|exact NEG|exact (ext_barray _ _ _ _ W0 X07 B0)|exact (ext_barray _ _ _ _ W2 X27 B2)|exact (ext_barray _ _ _ _ W3 X37 B3)|exact (ext_barray _ _ _ _ W4 X47 B4)|exact (ext_certlist _ _ _ _ W5 X57 B5)|exact (ext_certlist _ _ _ _ W6 (proj1 A7) B6)|exact B7]. }
  right. destruct (arrived_list _ _ _ _ _ S0 A0) as [Fi Si]. destruct (arrived_list _ _ _ _ _ Si A1) as [Fp S1]. destruct (arrived_list _ _ _ _ _ S1 A2) as [Ftls S2]. destruct (arrived_list _ _ _ _ _ S2 A3) as [Fcert S3]. destruct (arrived_list _ _ _ _ _ S3 A4) as [Fkey S4].
  destruct (arrived_list _ _ _ _ _ S4 A5) as [Fpv S5]. destruct (arrived_list _ _ _ _ _ S5 A6) as [Fps S6]. destruct (arrived_list _ _ _ _ _ S6 A7) as [Fad S7].
  exists now, m, it, issuer, pcms, arr, dtls, tls, dcert, cert, dkey, key, pv, lpv, ps, lps, ad, lad, h7. eexists.
  do 9 (split; [assumption || reflexivity|]). split; [exact Ex7|]. split; [exact S7|]. split; [reflexivity|].
  split; [exact (ext_array_at _ _ _ _ W1 X17 (T1 _ Ed))|]. split; [exact (ext_array_at _ _ _ _ W0 X07 T0)|]. split; [exact (ext_array_at _ _ _ _ W2 X27 T2)|]. split; [exact (ext_array_at _ _ _ _ W3 X37 T3)|]. split; [exact (ext_array_at _ _ _ _ W4 X47 T4)|].
  split; [exact (ext_certlist _ _ _ _ W5 X57 B5)|]. split; [exact (ext_certlist _ _ _ _ W6 (proj1 A7) B6)|]. split; [exact B7|].
  intros sign. rewrite HU. destruct (sign h7 _ arr pcms now issuer tls cert key pv ps ad) as [[vo h8]|]; cbn [obind]; [|reflexivity]. unfold registrar_tail. destruct (vo =? 0); reflexivity.
Qed.

Lemma registrar_sign_refuses : forall o serial s h rc arr pcms t issuer tls cert key pv ps add x1 x2 x3 x4 x5 x6 x7, (rc < 0)%Z -> h_barray h issuer = Ok x1 -> h_barray h tls = Ok x2 -> h_barray h cert = Ok x3 -> h_barray h key = Ok x4 -> h_certlist h pv = Ok x5 -> h_certlist h ps = Ok x6 -> h_certlist h add = Ok x7 ->
  registrar_sign o serial h rc arr pcms t issuer tls cert key pv ps add = registrar_sign_values o s h rc arr pcms t issuer tls cert key pv ps add.
Proof.
  intros o serial s h rc arr pcms t issuer tls cert key pv ps add x1 x2 x3 x4 x5 x6 x7 N H1 H2 H3 H4 H5 H6 H7. unfold registrar_sign, registrar_sign_values, with_cms. rewrite H1, H2, H3, H4, H5, H6, H7. cbn [obind].
  assert ((rc <? 0)%Z = true) as -> by lia. reflexivity.
Qed.

(** A verified request without a serial number. *)
Lemma no_serial_crash : forall o h cms created serial issuer rtls cert key vcerts vstore extra x s i lv ls pvr, ossl_sane o -> heap_wf h -> plenty h -> array_at h cms (Some x) -> string_at h serial (Some s) -> array_at h (issuer, 0%nat) (Some i) ->
  h_certlist h vcerts = Ok lv -> h_certlist h vstore = Ok ls -> says o x lv ls false pvr None -> get_attr_str (Some pvr) ASerial = Some None ->
  exists k, h_sign_voucher_request o h cms created serial issuer rtls cert key vcerts vstore extra = UB k.
Proof.
  intros o h cms created serial issuer rtls cert key vcerts vstore extra x s i lv ls pvr So W PL Ax As Ai Alv Als Hs Hn. unfold h_sign_voucher_request.
  rewrite (proj2 (N.eqb_neq _ _) (proj1 As)), (proj2 (N.eqb_neq _ _) (proj1 Ai : issuer <> 0)). apply verify_says in Hs.
  pose proof (checks_ok o h cms vcerts vstore false (Some x) lv ls _ So W Ax Alv Als Hs) as X. destruct (h_verify_cms_voucher o h cms vcerts vstore false) as [[[[v pl] l0] h1]|e]; cbn [obind checks] in *; [|exists e; reflexivity].
  destruct X as [E1 [(-> & Q & _)|(V0 & w & lst & fp & F & lk & Ew & _ & Hv & Ag & _)]].
  { exfalso. destruct Q as [Q|Q]; [discriminate|]. apply (plenty_not_starved _ PL). eapply refused_starved. exact Q. }
  rewrite (proj2 (N.eqb_neq _ _) V0). assert (w = pvr) as -> by congruence. apply vstate_vch in Hv. destruct Hv as (Fp & Hp & _). assert (N0 : v_serial pvr = None) by (cbn [get_attr_str] in Hn; congruence).
  destruct (vch_serial _ _ _ _ _ Hp Ag) as (p & Gp & Sp & _); [intros u Q; congruence|]. rewrite N0 in Sp. cbn [string_at] in Sp. subst p. rewrite Gp. cbn [obind]. unfold h_strcmp_eq, heap_string, load_buf. cbn [N.eqb obind]. eexists. reflexivity.
Qed.

Definition full_registrar_done (o : ossl) (w : world) (f : registrar_files) (post : post_fn) (peer : option cert_view) (h : heap) (body : bytes) (r : outcome (Z * bytes * heap)) : Prop :=
  exists status response h' lk, r = Ok (status, response, h') /\ ext h h' /\ hold (hp_next h) h' lk /\ (registrar_clean o w f body -> lk = []) /\ registrar_answer o w f post peer body (status, response).

Lemma full_ret : forall o w f post peer h body h1 l lk xs status response, st (hp_next h) h1 (l ++ bufs lk) -> ext h h1 -> Permutation xs (map fst l) -> (registrar_clean o w f body -> lk = []) ->
  registrar_answer o w f post peer body (status, response) -> full_registrar_done o w f post peer h body (obind (cleanup h1 xs) (fun h => Ok (status, response, h))).
Proof.
  intros o w f post peer h body h1 l lk xs status response S E Pm HL A. destruct (cleanup_most _ _ _ _ _ [] S (Forall_nil _) Pm) as (h2 & E2 & S2 & K2 & Hn & Ho). rewrite E2. cbn [obind].
  exists status, response, h2, lk. split; [reflexivity|]. split; [|split; [apply st_hold in S2; rewrite oprint_bufs in S2; exact S2|split; [exact HL|exact A]]].
  pose proof E as (W1 & N1 & K1 & O1). split; [eapply st_wf; exact S2|]. split; [lia|]. split; [|congruence]. intros a Ha. rewrite K2 by lia. apply K1. exact Ha.
Qed.

Lemma registrar_called : forall o w c f post v h body serial s, ossl_sane o -> world_ok w -> heap_wf h -> plenty h -> view_ok v -> client_serial v s -> string_at h serial (Some s) -> registrar_fits o w f (Some v) body ->
  registrar_reached w c f post v h body ->
  (registrar_unsafe o w f (Some v) body /\ exists k, registrar_handler (registrar_sign o serial) w c post h (Some v) (c_string body) = UB k) \/
  (~ registrar_unsafe o w f (Some v) body /\ full_registrar_done o w f post (Some v) h body (registrar_handler (registrar_sign o serial) w c post h (Some v) (c_string body))).
Proof.
  intros o w c f post v h body serial s OS [WC WK] W PL (V1 & V2 & V3 & V4) CS Ss Fits
    (t & m & it & issuer & pcms & arr & dtls & tls & dcert & cert & dkey & key & pv & lpv & ps & lps & ad & lad & h7 & l & Enow & Ei & Ed & Eltls & Elcert & Elkey & CLpv & CLps & CLad & X7 & S7 & Ml & Tm & Ti & Tt & Tc & Tk & Bpv & Bps & Bad & HU).
  rewrite HU. clear HU. pose proof (proj1 X7) as W7. pose proof (ext_plenty _ _ X7 PL) as PL7. pose proof (ext_string_at _ _ _ _ W X7 Ss) as Ss7.
  pose proof (rfc_decode_bytes _ _ Ed) as Bm.
  assert (NB : ~ bad_padding (c_string body)) by (intros Q; apply decode_bad in Q; destruct Q; congruence).
  assert (BI : ba_bytes (Some (issuer_ba it))) by (destruct it as [|x it]; [reflexivity|apply ba_bytes_of; apply V3; exact Ei]).
  assert (SOK : forall s0, Some s = Some s0 -> cstr_ok s0) by (intros s0 Q; injection Q as <-; destruct CS as [_ (t0 & Q & ->)]; apply c_string_cstr; eapply V2; exact Q).
  assert (SNZ : forall s0, Some s = Some s0 -> ~ In 0 s0) by (intros s0 Q; injection Q as <-; destruct CS as [_ (t0 & Q & ->)]; apply c_string_no_nul).
  unfold registrar_sign. destruct (Z.ltb_spec (Z.of_N (blen m)) 0) as [Q|_]; [lia|].
  pose proof (fun k => registrar_crash o (Some (ba_of m)) t (Some s) (Some (issuer_ba it)) (Some (ba_of dtls)) (Some (ba_of dcert)) (Some (ba_of dkey)) lpv lps lad k OS SOK (ba_bytes_of _ Bm) BI (ba_bytes_of _ (WC _ _ Eltls)) (ba_bytes_of _ (WC _ _ Elcert)) (ba_bytes_of _ (WK _ _ Elkey))) as CRASH.
  destruct (registrar_by o h7 (pcms, 0%nat) (Some t) serial issuer tls cert key pv ps ad (Some (ba_of m)) (Some s) (Some (issuer_ba it)) (Some (ba_of dtls)) (Some (ba_of dcert)) (Some (ba_of dkey)) lpv lps lad OS W7 Tm Ss7 Ti Tt Tc Tk Bpv Bps Bad (ba_bytes_of _ Bm) BI) as (lk & HL & G).
  { intros t0 s' n' i' x' xb pvr Q1 Q2 Q3 Q4 Q5 Q6 Q7. assert (t0 = t) as -> by congruence. assert (s' = s) as -> by congruence. assert (xb = ba_of m) as -> by congruence. assert (x' = m) as -> by (eapply ba_has_of; exact Q4).
    assert (i' = it) as -> by (destruct it as [|x it]; [destruct Q3 as (b' & rest & Z1 & Z2 & _); injection Z1 as <-; discriminate Z2|eapply ba_has_of; exact Q3]).
    exact (Fits v t s n' it m lpv lps pvr eq_refl Enow CS Ei Ed CLpv CLps Q6 Q7). }
  destruct (sign_voucher_request o (Some (ba_of m)) (Some t) (Some s) (Some (issuer_ba it)) (Some (ba_of dtls)) (Some (ba_of dcert)) (Some (ba_of dkey)) lpv lps lad) as [v1|k1] eqn:Ev.
  2:{ left. destruct (proj1 (CRASH k1) eq_refl) as (_ & _ & _ & pc & pvr & Q & Q1 & Q2). injection Q as <-. split.
      - exists v, s. split; [reflexivity|]. split; [exact CS|]. split; [congruence|]. right. exists m, dtls, dcert, dkey, lpv, lps, lad, pvr. split; [congruence|]. repeat (split; [assumption || reflexivity|]). exact Q2.
      - destruct (no_serial_crash o h7 (pcms, 0%nat) (Some t) serial issuer tls cert key pv ps ad _ _ _ _ _ pvr OS W7 PL7 Tm Ss7 Ti Bpv Bps Q1 Q2) as [k E]. rewrite E. exists k. reflexivity. }
  right. split.
  { intros (v' & s' & _ & _ & _ & [Q|(m' & ? & ? & ? & vc' & vs' & ad' & pvr & _ & Q & _ & _ & _ & L1 & L2 & L3 & Q1 & Q2)]); [contradiction|]. rewrite Ed in Q. injection Q as <-.
    rewrite <- (cert_list_fun _ _ _ _ CLpv L1), <- (cert_list_fun _ _ _ _ CLps L2) in Q1.
    assert (QQ : Ok v1 = UB NullDeref) by (apply (proj2 (CRASH NullDeref)); split; [reflexivity|]; split; [discriminate|]; split; [discriminate|]; exists (ba_of m), pvr; auto). discriminate QQ. }
  clear CRASH. assert (HLK : registrar_clean o w f body -> lk = []) by (intros Cl; apply HL; apply clean_of; exact (Cl m lpv lps Ed CLpv CLps)). clear HL.
  cbn [ends_by] in G. destruct (h_sign_voucher_request o h7 _ _ _ _ _ _ _ _ _ _) as [[vo h8]|k]; [|destruct G as [_ G]; destruct (plenty_not_starved _ PL7 G)].
  destruct G as [X78 G]. pose proof (ext_trans _ _ _ X7 X78) as Ex8. pose proof (ext_plenty _ _ Ex8 PL) as PL8. cbn [obind]. unfold registrar_tail. cbv zeta.
  destruct G as [(-> & HK & Q)|(d & b & -> & A & HK)].
  - cbn [N.eqb]. assert (v1 = None) as -> by (destruct Q as [Q|Q]; [exact Q|exfalso; apply (plenty_not_starved _ PL7); eapply refused_starved; exact Q]).
    pose proof (st_acquire _ _ _ _ _ S7 X78 (hold_st _ _ _ HK)) as S8. apply (st_perm _ _ _ (l ++ bufs lk)) in S8; [|apply Permutation_app_comm].
    eapply full_ret; [exact S8|exact Ex8|apply Permutation_refl|exact HLK|]. right. left. split; [reflexivity|]. right. split.
    + split; [congruence|]. split; [congruence|]. split; [congruence|]. split; [congruence|]. repeat (apply Forall_cons; [eapply listed_not_missing; eassumption|]). apply Forall_nil.
    + intros (v' & m' & cms' & Q1 & Q2 & RP). injection Q1 as <-. rewrite Ed in Q2. injection Q2 as <-. destruct RP as (t' & s0 & i & tl & ce & ke & vc & vs & ad' & pvr & prox & n & R1 & R2 & R3 & R0 & R4 & R5 & R6 & R7 & R8 & R9 & R10 & R11 & R12 & R13 & R14 & R15 & R16).
      rewrite (serial_fun _ _ _ R2 CS) in *. rewrite Enow in R1. injection R1 as <-. rewrite Ei in R3. injection R3 as <-. rewrite Eltls in R4. injection R4 as <-. rewrite Elcert in R5. injection R5 as <-. rewrite Elkey in R6. injection R6 as <-.
      rewrite <- (cert_list_fun _ _ _ _ CLpv R7), <- (cert_list_fun _ _ _ _ CLps R8) in R10. rewrite <- (cert_list_fun _ _ _ _ CLad R9) in R16.
      assert (QQ : Ok (@None bytes) = Ok (Some cms')); [|discriminate QQ]. rewrite <- Ev. apply registrar_iff; [exact OS|exact SOK|].
      exists (ba_of m), pvr, t, s, it, (ba_of dtls), m, prox, n. repeat (split; [reflexivity || assumption|]). split; [destruct it; [congruence|apply ba_of_has]|]. split; [apply ba_of_has|exact R16].
  - assert (RP : registrar_posts o w f v m d).
    { destruct (registrar_request_says _ _ _ _ _ _ _ _ _ _ _ _ OS SNZ Ev) as (pc & pvr & t0 & s0 & i & rc0 & p & prox & n & R1 & R2 & R3 & R4 & R5 & R6 & R7 & R8 & R9 & R10 & R11 & R12 & R13).
      injection R1 as <-. injection R2 as <-. injection R3 as <-. injection R4 as <-.
      assert (p = m) as -> by (eapply ba_has_of; exact R12).
      assert (i = it) as -> by (destruct it as [|x it]; [destruct R11 as (b' & rest & Q1 & Q2 & _); injection Q1 as <-; discriminate Q2|eapply ba_has_of; exact R11]).
      exists t, s, it, dtls, dcert, dkey, lpv, lps, lad, pvr, prox, n. split; [exact Enow|]. split; [exact CS|]. split; [exact Ei|]. split; [intros ->; destruct R11 as (b' & rest & Q1 & Q2 & _); injection Q1 as <-; discriminate Q2|]. repeat (split; [assumption|]). assumption. }
    assert (Bv : bytes_ok d). { destruct RP as (? & ? & ? & ? & ? & ? & ? & ? & ? & ? & ? & ? & _ & _ & _ & _ & _ & _ & _ & _ & _ & _ & _ & _ & _ & _ & _ & _ & Q). eapply signed_bytes; eassumption. }
    destruct (hold_in _ _ _ vo HK (or_introl eq_refl)) as (_ & V0 & _). rewrite (proj2 (N.eqb_neq _ _) V0).
    pose proof (st_acquire _ _ _ _ _ S7 X78 (hold_arr _ _ _ _ _ _ HK A)) as S8.
    unfold post_voucher_request. destruct (encode_new h8 vo b d (proj1 Ex8) PL8 Bv V0 A) as (h9 & E9 & Xf & Sf). rewrite E9. cbn [obind]. pose proof (ext_trans _ _ _ Ex8 Xf) as Ex9. pose proof (st_acquire _ _ _ _ _ S8 Xf Sf) as S9. cbn [app] in S9.
    assert (S9' : st (hp_next h) h9 (((OArr vo, vo :: nz b) :: l) ++ bufs lk)) by (eapply st_perm; [|exact S9]; cbn [app]; constructor; apply Permutation_app_comm). clear S9.
    assert (Pm : Permutation (OArr vo :: map fst l) (map fst ((OArr vo, vo :: nz b) :: l))) by apply Permutation_refl.
    destruct (blen d <? SIZE_MAX / 4) eqn:Lv.
    2:{ cbn [obind]. change ((-1 <? 0)%Z) with true. cbv iota. eapply full_ret; [exact S9'|exact Ex9|exact Pm|exact HLK|]. left. exists v, m, d. repeat (split; [assumption || reflexivity|]). right. right. split; [reflexivity|]. split; [right; lia|reflexivity]. }
    destruct (post (rfc_encode d)) as [status response] eqn:Ep. destruct (Z.ltb_spec status 0) as [Ls|Ls]; cbn [obind].
    { change ((-1 <? 0)%Z) with true. cbv iota. eapply full_ret; [exact S9'|exact Ex9|exact Pm|exact HLK|]. left. exists v, m, d. repeat (split; [assumption || reflexivity|]). rewrite Ep. right. right. split; [reflexivity|]. split; [left; exact Ls|reflexivity]. }
    destruct (Z.leb_spec 400 status) as [Lt|Lt]; cbn [obind].
    { change ((400 <? 0)%Z) with false. cbv iota. eapply full_ret; [exact S9'|exact Ex9|exact Pm|exact HLK|]. left. exists v, m, d. repeat (split; [assumption || reflexivity|]). rewrite Ep. right. left. split; [reflexivity|]. split; [split; [lia|exact Lt]|reflexivity]. }
    change ((0 <? 0)%Z) with false. cbv iota. eapply full_ret; [exact S9'|exact Ex9|exact Pm|exact HLK|]. left. exists v, m, d. repeat (split; [assumption || reflexivity|]). rewrite Ep. left. split; [reflexivity|]. split; [split; [lia|cbn [fst]; lia]|reflexivity].
Qed.
