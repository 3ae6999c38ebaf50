(** The claims about the memory of the MASA's voucher; witnesses. *)
From Coq Require Import Permutation ZifyBool ZifyNat ZifyN.
From Verif Require Import Base PBase MBase64 MSerialize MOs MJsmn MVoucher SVoucher PVoucher SJson PVoucherText PVoucherRound MCrypto MRequest SRequest PRequest PRequest2 PRequest3 PRequest5 PRequest6 PRequest7
  MHeap MArray MVoucherHeap MConfig MHandlers MSerialHeap MRequestHeap SHeap SArray SVoucherHeap SSerialHeap PHeap PArray PBlocks POwn PHold
  PVoucherHeap PVoucherHeapJson PVoucherHeapOom PVoucherHeapFind PAcquire PSerialHeap PSerialHeap3 PSerialHeap4 SRequestHeap PRequestHeap PRequestHeap2 PRequestHeap3 PRequestHeap4 PRequestHeap5 PRequestHeap8.
Open Scope N_scope.

Lemma clean_of : forall o x certs store, clean_content o x certs store -> clean o x certs store.
Proof. intros o x certs store H y c st json Ey Hv. exact (H y c st json Ey Hv). Qed.

Lemma masa_memory : forall o h0 cms expires cb cert key rcerts rstore pcerts pstore extra x c k lr lrs lp lps l r,
  ossl_sane o -> heap_wf h0 -> array_at h0 cms x -> array_at h0 (cert, 0%nat) c -> array_at h0 (key, 0%nat) k ->
  h_certlist h0 rcerts = Ok lr -> h_certlist h0 rstore = Ok lrs -> h_certlist h0 pcerts = Ok lp -> h_certlist h0 pstore = Ok lps -> h_certlist h0 extra = Ok l -> ba_bytes x ->
  (forall f s regs, cb = Some f -> ba_bytes (Some (snd (f s regs)))) ->
  (forall t f s n d xb vr regs rc pinned, expires = Some t -> cb = Some f -> x = Some xb -> says o xb lr lrs true vr regs -> get_attr_str (Some vr) ASerial = Some (Some s) ->
     f s regs = (rc, pinned) -> (0 <= rc)%Z -> ba_has (Some pinned) d -> nonce_is vr n -> text_fits (masa_content t s n d)) ->
  sign_masa_pledge_voucher o x expires cb c k lr lrs lp lps l = Ok r ->
  match h_sign_masa_pledge_voucher o h0 cms expires cb cert key rcerts rstore pcerts pstore extra with
  | UB e => e = NullDeref /\ starved h0
  | Ok (p, h') => some_array h0 r p h' /\
      (clean_request o x lr lrs lp lps ->
       (forall xb cm st json, x = Some xb -> ~ verified o xb lr lrs cm st json) \/ (plenty h0 /\ exists xb vr regs, x = Some xb /\ says o xb lr lrs true vr regs) -> new_array h0 r p h')
  end.
Proof.
  intros o h0 cms expires cb cert key rcerts rstore pcerts pstore extra x c k lr lrs lp lps l r So W Ax Ac Ak Alr Alrs Alp Alps Al Bx Bc Tf Er.
  destruct (masa_by o h0 cms expires cb cert key rcerts rstore pcerts pstore extra x c k lr lrs lp lps l So W Ax Ac Ak Alr Alrs Alp Alps Al Bx Bc Tf) as (lk & HL & X). rewrite Er in X. cbn [ends_by] in X.
  destruct (h_sign_masa_pledge_voucher o h0 cms expires cb cert key rcerts rstore pcerts pstore extra) as [[p h']|e]; [|exact X]. split; [eapply gotten_some; exact X|].
  intros [C1 C2] Q. apply gets_new. apply gotten_gets. rewrite HL in X; [exact X|apply clean_of; exact C1| |exact Q].
  intros xb vr regs prior Ex Sy Ep. apply clean_of. exact (C2 xb vr regs prior Ex Sy Ep).
Qed.

Lemma masa_result : forall o h0 cms expires cb cert key rcerts rstore pcerts pstore extra x c k lr lrs lp lps l,
  ossl_sane o -> heap_wf h0 -> plenty h0 -> array_at h0 cms x -> array_at h0 (cert, 0%nat) c -> array_at h0 (key, 0%nat) k ->
  h_certlist h0 rcerts = Ok lr -> h_certlist h0 rstore = Ok lrs -> h_certlist h0 pcerts = Ok lp -> h_certlist h0 pstore = Ok lps -> h_certlist h0 extra = Ok l -> ba_bytes x ->
  (forall f s regs, cb = Some f -> ba_bytes (Some (snd (f s regs)))) ->
  (forall t f s n d xb vr regs rc pinned, expires = Some t -> cb = Some f -> x = Some xb -> says o xb lr lrs true vr regs -> get_attr_str (Some vr) ASerial = Some (Some s) ->
     f s regs = (rc, pinned) -> (0 <= rc)%Z -> ba_has (Some pinned) d -> nonce_is vr n -> text_fits (masa_content t s n d)) ->
  clean_request o x lr lrs lp lps -> voucher_or_nothing o x lr lrs true ->
  forall r, sign_masa_pledge_voucher o x expires cb c k lr lrs lp lps l = Ok r ->
  exists p h', h_sign_masa_pledge_voucher o h0 cms expires cb cert key rcerts rstore pcerts pstore extra = Ok (p, h') /\ new_array h0 r p h' /\ (p = 0 <-> r = None) /\
    (p <> 0 -> exists xb vr regs pvr prior t f s rc pinned d n y b, x = Some xb /\ says o xb lr lrs true vr regs /\ get_attr_array (Some vr) APrior = Some prior /\ says o prior lp lps false pvr None /\
       get_attr_str (Some vr) ASerial = Some (Some s) /\ get_attr_str (Some pvr) ASerial = Some (Some s) /\ expires = Some t /\ cb = Some f /\ f s regs = (rc, pinned) /\ (0 <= rc)%Z /\ ba_has (Some pinned) d /\ nonce_is vr n /\
       hp_cell h' p = Live (Struct [P b; I (Z.of_N (blen y))]) /\ content h' b = y /\ signed_voucher o c k l (masa_content t s n d) y).
Proof.
  intros o h0 cms expires cb cert key rcerts rstore pcerts pstore extra x c k lr lrs lp lps l So W PL Ax Ac Ak Alr Alrs Alp Alps Al Bx Bc Tf Cl Vn r Er.
  pose proof (masa_memory o h0 cms expires cb cert key rcerts rstore pcerts pstore extra x c k lr lrs lp lps l r So W Ax Ac Ak Alr Alrs Alp Alps Al Bx Bc Tf Er) as X.
  destruct (h_sign_masa_pledge_voucher o h0 cms expires cb cert key rcerts rstore pcerts pstore extra) as [[p h']|e]; [|destruct X as [_ S]; destruct (plenty_not_starved _ PL S)].
  destruct X as [_ X]. assert (Q : (forall xb cm st json, x = Some xb -> ~ verified o xb lr lrs cm st json) \/ (plenty h0 /\ exists xb vr regs, x = Some xb /\ says o xb lr lrs true vr regs)).
  { destruct x as [x|]; [|left; intros xb cm st json Q; discriminate Q]. destruct (Vn x eq_refl) as [Y|(v & regs & Y)]; [left; intros xb cm st json Q; assert (xb = x) as -> by congruence; apply Y|right; split; [exact PL|eauto]]. }
  specialize (X Cl Q). exists p, h'. split; [reflexivity|]. split; [exact X|]. split; [exact (new_plenty _ _ _ _ PL X)|]. intros P0. destruct (new_content _ _ _ _ W X P0) as (y & b & -> & Cp & Cb).
  apply masa_voucher_says in Er; [|exact So]. destruct Er as (rc & vr & regs & prior & p0 & pvr & t & f & s & rcode & pinned & d & n & H1 & H2 & H3 & H4 & H5 & _ & H7 & H8 & H9 & H10 & H11 & H12 & H13 & H14).
  exists rc, vr, regs, pvr, prior, t, f, s, rcode, pinned, d, n, y, b. repeat (split; [assumption|]). exact H14.
Qed.

(** *** Witnesses *)
Definition reg_asked : bytes := match sign_voucher_request toy (Some (ba_of asked)) (Some tm_case) (Some (s2b "A1")) (Some (ba_of [1])) (Some (ba_of [2; 0])) (Some (ba_of [2; 0])) (Some (ba_of [2])) None pledges_store None with Ok (Some r) => r | _ => [] end.
(** The MASA's certificate (1) and key (3), a request (5), the registrars (7)
    and the pledges (10) it trusts. *)
Definition masa_desk (cms : bytes) : list block :=
  [Struct [P 2; I 2]; Buf [3; 0]; Struct [P 4; I 1]; Buf [3]; Struct [P 6; I (Z.of_N (blen cms))]; Buf cms;
   Struct [P 0; I 0; I 0; P 8; P 8; P 7]; Struct [P 9; I 2; I 0; P 7; P 7; P 8]; Buf [2; 0];
   Struct [P 0; I 0; I 0; P 11; P 11; P 10]; Struct [P 12; I 2; I 0; P 10; P 10; P 11]; Buf [1; 0]].
Definition pins : voucher_req_fn := fun _ _ => (0%Z, ba_of [2; 0]).
Definition registrars_store : option certlist := Some [([2; 0], 0%Z)].

Lemma toy_verified : forall x certs store c st j, verified toy x certs store c st j -> exists d, holds_bytes x d /\ c = (hd 0 d, List.tl d) /\ j = List.tl d.
Proof.
  intros x certs store c st j (d & s & H1 & H2 & _ & _ & H5). exists d. split; [exact H1|]. destruct d as [|id json]; [discriminate H2|]. cbn [d2i_cms toy] in H2. assert (c = (id, json)) as -> by congruence. split; [reflexivity|].
  cbn [cms_verify toy fst snd] in H5. destruct (bytes_okb json && (blen json <? 2147483648) && _); [cbn [List.tl]; congruence|discriminate H5].
Qed.
Lemma reg_unrepeated : forall a, owning a -> ~ repeated (attr_name a) (List.tl reg_asked).
Proof.
  intros a Ho R. apply repeated_b in R. pose proof (owning_all a Ho) as Ha. cbn [all_attrs In] in Ha.
  repeat (destruct Ha as [<-|Ha]; [vm_compute in R; discriminate|]). destruct Ha.
Qed.
Lemma reg_clean : clean_request toy (Some (ba_of reg_asked)) None registrars_store None pledges_store.
Proof.
  split.
  - intros x c st json Ex Hv. left. intros a Ha. assert (x = ba_of reg_asked) as -> by congruence. apply toy_verified in Hv. destruct Hv as (d & Hd & _ & ->). assert (d = reg_asked) as -> by (eapply holds_bytes_fun; [exact Hd|right; apply ba_of_has]). apply reg_unrepeated. exact Ha.
  - intros x vr regs prior Ex Sy Ep y c st json Ey Hv. left. intros a Ha. assert (x = ba_of reg_asked /\ y = prior) as [-> ->] by (split; congruence). apply verify_says in Sy.
    assert (Pr : prior = ba_of asked).
    { apply (f_equal (fun o => match o with Ok (Some (v, _)) => v_prior v | _ => ba_null end)) in Sy. cbn [get_attr_array] in Ep. assert (prior = v_prior vr) as -> by congruence. rewrite <- Sy. vm_compute. reflexivity. }
    subst prior. apply toy_content in Hv. subst json. apply asked_unrepeated. exact Ha.
Qed.

Lemma masa_case : forall oom r, r = match sign_masa_pledge_voucher toy (Some (ba_of reg_asked)) (Some tm_case) (Some pins) (Some (ba_of [3; 0])) (Some (ba_of [3])) None registrars_store None pledges_store None with Ok r => r | _ => None end ->
  r <> None /\
  match h_sign_masa_pledge_voucher toy (memory (masa_desk reg_asked) oom) (5, 0%nat) (Some tm_case) (Some pins) 1 3 0 7 0 10 0 with
  | UB e => e = NullDeref /\ starved (memory (masa_desk reg_asked) oom)
  | Ok (p, h') => some_array (memory (masa_desk reg_asked) oom) r p h' /\ (plenty (memory (masa_desk reg_asked) oom) -> new_array (memory (masa_desk reg_asked) oom) r p h')
  end.
Proof.
  intros oom r Er. split; [subst r; vm_compute; discriminate|]. set (h0 := memory (masa_desk reg_asked) oom).
  pose proof (masa_memory toy h0 (5, 0%nat) (Some tm_case) (Some pins) 1 3 0 7 0 10 0 (Some (ba_of reg_asked)) (Some (ba_of [3; 0])) (Some (ba_of [3])) None registrars_store None pledges_store None r toy_sane (memory_wf _ _)) as X.
  match type of X with _ -> _ -> _ -> _ -> _ -> _ -> _ -> _ -> _ -> _ -> _ -> _ -> ?c => assert (Y : c) end.
  { apply X; clear X.
    - at_desk.
    - at_desk.
    - at_desk.
    - reflexivity.
    - vm_compute. reflexivity.
    - reflexivity.
    - vm_compute. reflexivity.
    - reflexivity.
    - split; [apply bytes_okb_ok; vm_compute; reflexivity|vm_compute; discriminate].
    - intros f s regs Ef. assert (f = pins) as -> by congruence. split; [apply bytes_okb_ok; reflexivity|vm_compute; discriminate].
    - intros t f s n d xb vr regs rc pinned Et Ef Ex Sy Es Ec _ Hd Hn v text Hv Ht. apply pv3_unique in Hv. subst v. assert (t = tm_case /\ f = pins /\ xb = ba_of reg_asked) as (-> & -> & ->) by (repeat split; congruence).
      assert (pinned = ba_of [2; 0]) as -> by (unfold pins in Ec; congruence). assert (d = [2; 0]) as -> by (eapply ba_has_fun; [exact Hd|apply ba_of_has]).
      apply verify_says in Sy. assert (Ns : v_nonce vr = ba_of (s2b "hello") /\ v_serial vr = Some (s2b "A1")).
      { split; [apply (f_equal (fun o => match o with Ok (Some (v, _)) => v_nonce v | _ => ba_null end)) in Sy|apply (f_equal (fun o => match o with Ok (Some (v, _)) => v_serial v | _ => None end)) in Sy]; rewrite <- Sy; vm_compute; reflexivity. }
      destruct Ns as [N1 N2]. unfold nonce_is in Hn. cbn [get_attr_array] in Hn. rewrite N1 in Hn. destruct n as [n|]; [|discriminate Hn]. assert (n = s2b "hello") as -> by (unfold ba_of in Hn; congruence).
      cbn [get_attr_str] in Es. rewrite N2 in Es. assert (s = s2b "A1") as -> by congruence.
      apply (f_equal (fun o => match o with Ok (Some y) => blen y | _ => 0 end)) in Ht. rewrite <- Ht. vm_compute. reflexivity.
    - subst r. vm_compute. reflexivity. }
  clear X. destruct (h_sign_masa_pledge_voucher toy h0 (5, 0%nat) (Some tm_case) (Some pins) 1 3 0 7 0 10 0) as [[p h']|e]; [|exact Y]. destruct Y as [Y1 Y2]. split; [exact Y1|]. intros PL. apply Y2; [exact reg_clean|].
  right. split; [exact PL|]. exists (ba_of reg_asked). destruct (verify_cms_voucher toy (Some (ba_of reg_asked)) None registrars_store true) as [[[vr regs]|]|] eqn:Ev.
  - exists vr, regs. split; [reflexivity|]. apply verify_says. exact Ev.
  - exfalso. apply (f_equal (fun o => match o with Ok None => true | _ => false end)) in Ev. vm_compute in Ev. discriminate Ev.
  - exfalso. apply (f_equal (fun o => match o with UB _ => true | _ => false end)) in Ev. vm_compute in Ev. discriminate Ev.
Qed.

(** A signed message that is no voucher costs the MASA three blocks. *)
Definition nonsense : bytes := 2 :: s2b "x".
Lemma masa_leak_refuted : exists o h0 cms expires cb cert key rstore pstore x c k lrs lps h' a, ossl_sane o /\ heap_wf h0 /\ plenty h0 /\
  array_at h0 (cms, 0%nat) (Some x) /\ array_at h0 (cert, 0%nat) c /\ array_at h0 (key, 0%nat) k /\ h_certlist h0 rstore = Ok lrs /\ h_certlist h0 pstore = Ok lps /\
  (exists cm st json, verified o x None lrs cm st json) /\ clean_request o (Some x) None lrs None lps /\
  h_sign_masa_pledge_voucher o h0 (cms, 0%nat) expires cb cert key 0 rstore 0 pstore 0 = Ok (0, h') /\
  hp_next h0 <= a /\ is_live h' a.
Proof.
  set (h0 := memory (masa_desk nonsense) enough).
  set (h' := match h_sign_masa_pledge_voucher toy h0 (5, 0%nat) (Some tm_case) (Some pins) 1 3 0 7 0 10 0 with Ok (_, h) => h | _ => h0 end).
  exists toy, h0, 5, (Some tm_case), (Some pins), 1, 3, 7, 10, (ba_of nonsense), (Some (ba_of [3; 0])), (Some (ba_of [3])), registrars_store, pledges_store, h', 14.
  split; [exact toy_sane|]. split; [apply memory_wf|]. split; [intros a; reflexivity|]. split; [at_desk|]. split; [at_desk|]. split; [at_desk|]. split; [vm_compute; reflexivity|]. split; [vm_compute; reflexivity|].
  split. { exists (2, s2b "x"), None, (s2b "x"), nonsense, (Some [inl [2; 0]]). split; [right; apply ba_of_has|]. split; [reflexivity|]. split; [exact Logic.I|]. split; [split; [constructor; [split; reflexivity|constructor]|split; [reflexivity|exact Logic.I]]|]. vm_compute. reflexivity. }
  split.
  { split.
    - intros x c st json Ex Hv. left. intros a Ha R. assert (x = ba_of nonsense) as -> by congruence. apply toy_content in Hv. subst json. apply repeated_b in R. pose proof (owning_all a Ha) as Hi. cbn [all_attrs In] in Hi.
      repeat (destruct Hi as [<-|Hi]; [vm_compute in R; discriminate|]). destruct Hi.
    - intros x vr regs prior Ex Sy. exfalso. assert (x = ba_of nonsense) as -> by congruence. apply verify_says in Sy. apply (f_equal (fun o => match o with Ok None => true | _ => false end)) in Sy. vm_compute in Sy. discriminate Sy. }
  split; [vm_compute; reflexivity|]. split; [vm_compute; discriminate|]. eexists. vm_compute. reflexivity.
Qed.
(** Without memory it crashes. *)
Lemma masa_crash_refuted : exists o h0 cms expires cb cert key rstore pstore x c k lrs lps t, ossl_sane o /\ heap_wf h0 /\
  array_at h0 (cms, 0%nat) x /\ array_at h0 (cert, 0%nat) c /\ array_at h0 (key, 0%nat) k /\ h_certlist h0 rstore = Ok lrs /\ h_certlist h0 pstore = Ok lps /\
  sign_masa_pledge_voucher o x expires cb c k None lrs None lps None = Ok (Some t) /\
  h_sign_masa_pledge_voucher o h0 (cms, 0%nat) expires cb cert key 0 rstore 0 pstore 0 = UB NullDeref.
Proof.
  set (h0 := memory (masa_desk reg_asked) (fun a => a =? 17)).
  set (t := match sign_masa_pledge_voucher toy (Some (ba_of reg_asked)) (Some tm_case) (Some pins) (Some (ba_of [3; 0])) (Some (ba_of [3])) None registrars_store None pledges_store None with Ok (Some r) => r | _ => [] end).
  exists toy, h0, 5, (Some tm_case), (Some pins), 1, 3, 7, 10, (Some (ba_of reg_asked)), (Some (ba_of [3; 0])), (Some (ba_of [3])), registrars_store, pledges_store, t.
  split; [exact toy_sane|]. split; [apply memory_wf|]. split; [at_desk|]. split; [at_desk|]. split; [at_desk|]. split; [vm_compute; reflexivity|]. split; [vm_compute; reflexivity|]. split; vm_compute; reflexivity.
Qed.
(** And without memory for the list of signers, the content is lost. *)
Lemma masa_data_leak_refuted : exists o h0 cms expires cb cert key rstore pstore x c k lrs lps t h' a, ossl_sane o /\ heap_wf h0 /\
  array_at h0 (cms, 0%nat) x /\ array_at h0 (cert, 0%nat) c /\ array_at h0 (key, 0%nat) k /\ h_certlist h0 rstore = Ok lrs /\ h_certlist h0 pstore = Ok lps /\
  clean_request o x None lrs None lps /\ sign_masa_pledge_voucher o x expires cb c k None lrs None lps None = Ok (Some t) /\
  h_sign_masa_pledge_voucher o h0 (cms, 0%nat) expires cb cert key 0 rstore 0 pstore 0 = Ok (0, h') /\
  hp_next h0 <= a /\ is_live h' a.
Proof.
  set (h0 := memory (masa_desk reg_asked) (fun a => a =? 14)).
  set (t := match sign_masa_pledge_voucher toy (Some (ba_of reg_asked)) (Some tm_case) (Some pins) (Some (ba_of [3; 0])) (Some (ba_of [3])) None registrars_store None pledges_store None with Ok (Some r) => r | _ => [] end).
  set (h' := match h_sign_masa_pledge_voucher toy h0 (5, 0%nat) (Some tm_case) (Some pins) 1 3 0 7 0 10 0 with Ok (_, h) => h | _ => h0 end).
  exists toy, h0, 5, (Some tm_case), (Some pins), 1, 3, 7, 10, (Some (ba_of reg_asked)), (Some (ba_of [3; 0])), (Some (ba_of [3])), registrars_store, pledges_store, t, h', 13.
  split; [exact toy_sane|]. split; [apply memory_wf|]. split; [at_desk|]. split; [at_desk|]. split; [at_desk|]. split; [vm_compute; reflexivity|]. split; [vm_compute; reflexivity|].
  split; [exact reg_clean|]. split; [vm_compute; reflexivity|]. split; [vm_compute; reflexivity|]. split; [vm_compute; discriminate|]. eexists. vm_compute. reflexivity.
Qed.
