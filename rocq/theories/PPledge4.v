(** Consequences and concrete runs of the pledge client. *)
From Coq Require Import Permutation.
From Verif Require Import Base PBase MOs MBase64 MSerialize MVoucher MCrypto MRequest MHeap MArray MVoucherHeap MConfig MHandlers SBase64 SHeap SArray SConfig SVoucher SRequest SHandlers SPledge
  PBase64 PHeap PArray PBlocks PConfig PConfigMore PCertFiles POwn PAcquire PAcquire2 PRequest PRequest2 PRequest3 PRequest4 PRequest5 PRequest6 PRequest7 PMasa PRegistrar PPledge PPledge2 PPledge3.
Open Scope N_scope.

Lemma pledge_outcome : forall o w c f post1 post2 h pinned z h', ossl_sane o -> world_ok w -> heap_wf h -> plenty h -> pledge_config h c f -> pledge_text_ok f -> post_ok post1 -> post_ok post2 ->
  pinned <> 0 -> hp_cell h pinned = Live (Struct [P 0; I 0]) -> post_voucher_pledge_request o w c post1 post2 h pinned = Ok (z, h') ->
  (z = 0%Z /\ exists tls1 tls2 d, pledge_obtains o w f post1 post2 tls1 tls2 d /\ pinned_result h h' pinned d) \/
  (z = (-1)%Z /\ (forall tls1 tls2 d, ~ pledge_obtains o w f post1 post2 tls1 tls2 d) /\ kept (hp_next h) h h' /\ no_leak (hp_next h) h').
Proof.
  intros o w c f post1 post2 h pinned z h' OS WO W PL CF TX PO1 PO2 P0 CP E. destruct (pledge_run o w c f post1 post2 h pinned OS WO W PL CF TX PO1 PO2 P0 CP) as [[_ [k Q]]|[_ (z' & h1 & Q & D)]]; [congruence|].
  rewrite E in Q. injection Q as <- <-. destruct D as [(-> & X & S & N)|D]; [right|left; destruct D as (Dz & _ & _ & _ & D); split; assumption]. split; [reflexivity|]. split; [exact N|]. split; [apply X|apply st_leak; exact S].
Qed.
Lemma pledge_survives_iff : forall o w c f post1 post2 h pinned, ossl_sane o -> world_ok w -> heap_wf h -> plenty h -> pledge_config h c f -> pledge_text_ok f -> post_ok post1 -> post_ok post2 ->
  pinned <> 0 -> hp_cell h pinned = Live (Struct [P 0; I 0]) ->
  ((exists k, post_voucher_pledge_request o w c post1 post2 h pinned = UB k) <-> pledge_unsafe o w f post1 post2).
Proof.
  intros o w c f post1 post2 h pinned OS WO W PL CF TX PO1 PO2 P0 CP. destruct (pledge_run o w c f post1 post2 h pinned OS WO W PL CF TX PO1 PO2 P0 CP) as [[U C]|[NU (z' & h1 & Q & D)]]; [tauto|].
  split; [intros [k E]; congruence|intros U; contradiction].
Qed.
Lemma request_exact : forall o w c f h tls tb, ossl_sane o -> world_ok w -> heap_wf h -> plenty h -> pledge_config h c f -> pledge_text_ok f ->
  tls <> 0 -> h_barray h tls = Ok (Some (ba_of tb)) -> bytes_ok tb ->
  ((exists k, voucher_pledge_request_to_array o w c h tls = UB k) <-> asks_crash w f) /\
  (forall p h', voucher_pledge_request_to_array o w c h tls = Ok (p, h') -> kept (hp_next h) h h' /\
     (p = 0 /\ no_leak (hp_next h) h' /\ (forall cms, ~ pledge_asks o w f tb cms) \/
      p <> 0 /\ exists cms, h_barray h' p = Ok (Some (ba_of cms)) /\ pledge_asks o w f tb cms)).
Proof.
  intros o w c f h tls tb OS WO W PL CF TX T0 HT BT. destruct (ask_run o w c f h tls tb OS WO W PL CF TX T0 HT BT) as [[C U]|[NC (p & h1 & E & X & D)]].
  - split; [tauto|]. intros p h' Q. destruct U as [k U]. congruence.
  - split; [split; [intros [k Q]; congruence|contradiction]|]. intros p' h' Q. rewrite E in Q. injection Q as <- <-. split; [apply X|].
    destruct D as [(-> & S & N)|(P0 & cms & F & S & B & A)]; [left; split; [reflexivity|]; split; [apply st_leak; exact S|exact N]|right; split; [exact P0|]; exists cms; auto].
Qed.
Lemma verify_exact : forall o w c f h rc arr m tls tb pinned, ossl_sane o -> world_ok w -> heap_wf h -> plenty h -> pledge_config h c f -> pledge_text_ok f ->
  h_barray h tls = Ok (Some (ba_of tb)) -> bytes_ok tb -> pinned <> 0 -> hp_cell h pinned = Live (Struct [P 0; I 0]) ->
  rc = Z.of_N (blen m) -> load_buf h arr = Ok (Some m) -> bytes_ok m ->
  ((exists k, verify_masa_pledge_request o w c h rc arr tls pinned = UB k) <-> (forall n, ~ nonce_given f n) \/ missing (w_cert w) (pf_verify f) \/ missing (w_cert w) (pf_store f)).
Proof.
  intros o w c f h rc arr m tls tb pinned OS WO W PL CF TX HT BT P0 CP E L B. destruct (verify_run o w c f h rc arr (Some m) tls tb pinned OS WO W PL CF TX HT BT P0 CP (conj E (conj L B))) as [[C U]|[NC (z & h' & Q & _)]]; [tauto|].
  split; [intros [k Q2]; congruence|intros Q2; contradiction].
Qed.

(** *** A concrete pledge *)
Definition pledge_cells (nonce : bytes) : list cell :=
  [Fresh; text (s2b "A"); text nonce; text (s2b "pledge"); text (s2b "pledgekey")] ++ one_path 5 ++ [text (s2b "masa"); Live (Struct [P 0; I 0]); Live (Struct [P 10; I 2]); Live (Buf [2; 7]); Live (Buf issued)].
Definition pledge_case (nonce : bytes) : heap := mk_heap 12 (cells (pledge_cells nonce)) (fun _ => false).
Definition pledge_case_conf : pledge_conf := mk_pconf 0 1 2 3 4 0 0 5.
Definition pledge_case_files (nonce : bytes) : pledge_files := mk_pfiles None (Some (s2b "A")) (Some nonce) (s2b "pledge") (s2b "pledgekey") [] [] [s2b "masa"].
Definition pledge_world : world := mk_world (files_case [(s2b "pledge", [1; 0]); (s2b "masa", [3; 0])]) (files_case [(s2b "pledgekey", [1])]) (Some tm_case).
Definition server (der : bytes) : cert_view := mk_view (fun _ => Some None) (fun _ => Some None) None (Some der).
Definition contact (status : Z) (response der : bytes) : post_cert_fn := fun _ => (status, response, Some (server der)).

(** OpenSSL as [toy], but a chain is built only from a certificate to its issuer. *)
Definition picky : ossl := {|
  X509 := X509 toy; CRL := CRL toy; CMS := CMS toy; PKEY := PKEY toy;
  d2i_x509 := d2i_x509 toy; i2d_x509 := i2d_x509 toy; d2i_crl := d2i_crl toy; d2i_cms := d2i_cms toy; i2d_cms := i2d_cms toy;
  d2i_key := d2i_key toy; d2i_eckey := d2i_eckey toy; d2i_rsakey := d2i_rsakey toy; store_add := store_add toy;
  cms_sign := cms_sign toy; cms_verify := cms_verify toy; cms_signers := cms_signers toy;
  build_chain := fun x certs _ => match certs with y :: _ => if nth 1 x 0 =? hd 0 y then Some [x; y] else None | [] => None end |}.
Lemma picky_sane : ossl_sane picky.
Proof. exact toy_sane. Qed.

Lemma pledge_world_ok : world_ok pledge_world.
Proof. split; apply files_ok; repeat (apply Forall_cons; [reflexivity|]); apply Forall_nil. Qed.
Lemma pledge_case_wf : forall n, heap_wf (pledge_case n).
Proof. intros n. apply cells_wf; [lia|vm_compute; lia|reflexivity]. Qed.
Lemma pledge_case_config : forall n, cstr_ok n -> pledge_config (pledge_case n) pledge_case_conf (pledge_case_files n).
Proof.
  intros n H. split; [reflexivity|]. split; [reflexivity|]. split.
  { unfold opt_string. cbn [pledge_case_conf pl_nonce N.eqb]. rewrite (heap_string_exact (pledge_case n) 2 (n ++ [0])); [|discriminate|reflexivity|apply in_or_app; right; left; reflexivity]. cbn [obind]. rewrite c_string_app by (apply no_nul; exact H). reflexivity. }
  split; [reflexivity|]. split; [reflexivity|]. split; [left; split; reflexivity|]. split; [left; split; reflexivity|]. apply (one_path_list _ 5 7); vm_compute; reflexivity.
Qed.
Lemma pledge_case_text : forall n, cstr_ok n -> pledge_text_ok (pledge_case_files n).
Proof. intros n H. split; intros s Q; injection Q as <-; [apply cstr_okb_ok; reflexivity|]. unfold cstr_ok in H. unfold bytes_ok. eapply Forall_impl; [|exact H]. cbv beta. lia. Qed.
Lemma contact_ok : forall s r d, bytes_ok r -> bytes_ok d -> post_ok (contact s r d).
Proof.
  intros s r d Hr Hd body s' r' v _ E. injection E as <- <- <-. split; [exact Hr|]. intros v Q. injection Q as <-. split; [|split; [|split]]; cbn [server cv_issuer_entry cv_subject_entry cv_issuer_text cv_der]; try discriminate. intros d' Q. injection Q as <-. exact Hd.
Qed.
Lemma issued_ok : bytes_ok (rfc_encode issued).
Proof. apply bytes_okb_ok. vm_compute. reflexivity. Qed.

Definition swapped1 : post_cert_fn := contact 400 [] [2; 8].
Definition swapped2 : post_cert_fn := contact 200 (rfc_encode issued) [2; 7].
Lemma swapped_refuted : exists o w c f post1 post2 h pinned h' tls1 tls2 d, ossl_sane o /\ world_ok w /\ heap_wf h /\ plenty h /\ pledge_config h c f /\ pledge_text_ok f /\ post_ok post1 /\ post_ok post2 /\
  pinned <> 0 /\ hp_cell h pinned = Live (Struct [P 0; I 0]) /\ post_voucher_pledge_request o w c post1 post2 h pinned = Ok (0%Z, h') /\
  pledge_obtains o w f post1 post2 tls1 tls2 d /\ (forall m, ~ pledge_takes o w f tls1 m d).
Proof.
  assert (CN : cstr_ok (s2b "CQ==")) by (apply cstr_okb_ok; reflexivity). set (h := pledge_case (s2b "CQ==")).
  assert (PO1 : post_ok swapped1) by (apply contact_ok; apply bytes_okb_ok; reflexivity). assert (PO2 : post_ok swapped2) by (apply contact_ok; [exact issued_ok|apply bytes_okb_ok; reflexivity]).
  destruct (post_voucher_pledge_request picky pledge_world pledge_case_conf swapped1 swapped2 h 8) as [[z h']|k] eqn:E; [|exfalso; vm_compute in E; discriminate E].
  assert (z = 0%Z) as ->. { assert (QQ : match post_voucher_pledge_request picky pledge_world pledge_case_conf swapped1 swapped2 h 8 with Ok (z, _) => z | _ => 7%Z end = 0%Z) by (vm_compute; reflexivity). rewrite E in QQ. exact QQ. }
  destruct (pledge_outcome picky pledge_world pledge_case_conf (pledge_case_files (s2b "CQ==")) swapped1 swapped2 h 8 0%Z h' picky_sane pledge_world_ok (pledge_case_wf _) (fun a => eq_refl) (pledge_case_config _ CN) (pledge_case_text _ CN) PO1 PO2) as [(_ & t1 & t2 & d & OB & _)|[Q _]];
    [discriminate|reflexivity|exact E| |discriminate Q].
  exists picky, pledge_world, pledge_case_conf, (pledge_case_files (s2b "CQ==")), swapped1, swapped2, h, 8, h', t1, t2, d.
  split; [exact picky_sane|]. split; [exact pledge_world_ok|]. split; [apply pledge_case_wf|]. split; [intros a; reflexivity|]. split; [exact (pledge_case_config _ CN)|]. split; [exact (pledge_case_text _ CN)|]. split; [exact PO1|]. split; [exact PO2|]. split; [discriminate|]. split; [reflexivity|]. split; [exact E|]. split; [exact OB|].
  destruct OB as (cms & r & m & F & _ & _ & SC & ED & PT).
  assert (t1 = [2; 8]) as -> by (eapply first_fun; [exact F|exists 400%Z, [], (server [2; 8]); repeat split; discriminate]).
  assert (SC' : second_contact swapped2 (rfc_encode cms) [2; 7] (rfc_encode issued)) by (exists 200%Z, (server [2; 7]); split; [reflexivity|]; split; [lia|reflexivity]).
  destruct (second_fun _ _ _ _ _ _ SC SC') as [-> ->].
  destruct PT as (s & n & vc & vs & mv & _ & _ & _ & _ & _ & _ & _ & _ & CH). intros m' (s' & n' & vc' & vs' & mv' & _ & _ & _ & _ & _ & _ & _ & _ & CH').
  destruct CH as (cb & x & y & st & ch & C1 & C2 & C3 & C4 & C5 & _), CH' as (cb' & x' & y' & st' & ch' & D1 & D2 & D3 & D4 & D5 & _).
  rewrite (ba_has_of _ _ C1) in C2. rewrite (ba_has_of _ _ D1) in D2. cbn in C2, D2, C5, D5. injection C2 as <-. injection D2 as <-. rewrite C3 in D3. injection D3 as <-. cbn [nth] in C5, D5.
  destruct (N.eqb_spec 7 (hd 0 y)) as [Q|Q]; [|discriminate]. rewrite <- Q in D5. discriminate D5.
Qed.
Lemma config_refuted : exists o w c f post1 post2 h pinned k, ossl_sane o /\ world_ok w /\ heap_wf h /\ plenty h /\ pledge_config h c f /\ pledge_text_ok f /\ post_ok post1 /\ post_ok post2 /\
  pinned <> 0 /\ hp_cell h pinned = Live (Struct [P 0; I 0]) /\ post_voucher_pledge_request o w c post1 post2 h pinned = UB k.
Proof.
  assert (CN : cstr_ok (s2b "A===")) by (apply cstr_okb_ok; reflexivity).
  exists toy, pledge_world, pledge_case_conf, (pledge_case_files (s2b "A===")), swapped1, swapped2, (pledge_case (s2b "A===")), 8, DoubleFree.
  split; [exact toy_sane|]. split; [exact pledge_world_ok|]. split; [apply pledge_case_wf|]. split; [intros a; reflexivity|]. split; [exact (pledge_case_config _ CN)|]. split; [exact (pledge_case_text _ CN)|].
  split; [apply contact_ok; apply bytes_okb_ok; reflexivity|]. split; [apply contact_ok; [exact issued_ok|apply bytes_okb_ok; reflexivity]|]. split; [discriminate|]. split; [reflexivity|]. vm_compute. reflexivity.
Qed.

(** The response check alone, for the nonce "!": it does not survive, although
    creating the request reports an error for it. *)
Lemma nonce_refuted : exists w c f, world_ok w /\ heap_wf (pledge_case (s2b "!")) /\ plenty (pledge_case (s2b "!")) /\ pledge_config (pledge_case (s2b "!")) c f /\ pledge_text_ok f /\
  (exists h', voucher_pledge_request_to_array toy w c (pledge_case (s2b "!")) 9 = Ok (0, h')) /\
  (exists k, verify_masa_pledge_request toy w c (pledge_case (s2b "!")) (Z.of_N (blen issued)) 11 9 8 = UB k).
Proof.
  assert (CN : cstr_ok (s2b "!")) by (apply cstr_okb_ok; reflexivity).
  exists pledge_world, pledge_case_conf, (pledge_case_files (s2b "!")). split; [exact pledge_world_ok|]. split; [apply pledge_case_wf|]. split; [intros a; reflexivity|]. split; [exact (pledge_case_config _ CN)|]. split; [exact (pledge_case_text _ CN)|].
  split; eexists; vm_compute; reflexivity.
Qed.
