(** The MASA's handler keeps to what it holds and to the shared certificate. *)
From Coq Require Import Permutation.
From Verif Require Import Base PBase MOs MBase64 MSerialize MVoucher MCrypto MRequest MHeap MArray MVoucherHeap MConfig MHandlers MConcurrent MConcurrentReg SBase64 SHeap SArray SConfig SVoucher SRequest SHandlers SConcurrentReg SConcurrentMasa
  PBase64 PHeap PArray PBlocks PConfig PConfigMore PCertFiles POwn PAcquire PAcquire2 PRequest PRequest2 PRequest3 PRequest4 PRequest5 PRequest6 PRequest7 PMasa PConcurrent PConcurrentReg PConcurrentReg2 PConcurrentReg3 PConcurrentReg4 PConcurrentMasa.
Open Scope N_scope.

Section Steps.
Variables (h0 : heap) (dl : bytes) (good : Z -> bytes -> Prop) (bad : Prop) (R : nat).
Hypotheses (W0 : heap_wf h0) (PL0 : plenty h0).
Let base := hp_next h0.
Notation coop := (coop h0 dl good bad R).

Lemma coop_cert n t l rd path tx d kfail (k : N -> prog) : (t <> 2)%nat -> (t <> 10)%nat -> S t <> R -> heap_string h0 path = Ok tx -> rd tx = Some d ->
  (forall p F, p <> 0 -> coop n (S t) (k p) ((IArr p (Some (ba_of d)), F) :: l)) ->
  coop (S n) t (Step (fun h ld => obind (h_file_to_x509buf rd h path) (fun x => let (c, h) := x in if c =? 0 then Ok (h, ld, kfail) else Ok (h, ld, k c)))) l.
Proof.
  intros T1 T2 T3 Hp Hd K. apply coop_alone; [assumption..|]. intros h ld E O. right. pose proof (proj1 E) as W. pose proof (ext_plenty _ _ E PL0) as PL.
  pose proof (cert_arrives rd h path tx W PL (ext_string _ _ _ _ W0 E Hp)) as A. rewrite Hd in A.
  destruct A as (c & h' & Q & C0 & A & B). rewrite Q. cbn [obind]. rewrite (proj2 (N.eqb_neq _ _) C0). destruct (moved_arrived base h l h' (IArr c (Some (ba_of d))) W (proj1 (proj2 E)) O A) as [F M]; [intros F Ow; split; assumption|].
  do 3 eexists. split; [reflexivity|]. split; [exact M|]. apply K. exact C0.
Qed.
Lemma coop_list n t l rd path ts kfail (k : N -> prog) : (t <> 2)%nat -> (t <> 10)%nat -> S t <> R -> path_list h0 path ts -> ~ missing rd ts ->
  (forall xs p F, cert_list rd ts xs -> coop n (S t) (k p) ((IList p xs, F) :: l)) ->
  coop (S n) t (Step (fun h ld => obind (load_cert_files rd h path) (fun x => let '(z, p, h) := x in if (z <? 0)%Z then Ok (h, ld, kfail p) else Ok (h, ld, k p)))) l.
Proof.
  intros T1 T2 T3 Hp NM K. apply coop_alone; [assumption..|]. intros h ld E O. right. pose proof (proj1 E) as W. pose proof (ext_plenty _ _ E PL0) as PL.
  destruct (list_arrives rd h path ts W PL (ext_path_list _ _ _ _ W0 E Hp)) as [(p & h' & xs & Q & A & B & CL & _)|(p & h' & Q & _ & X & S & _ & Mi)]; [|contradiction]. rewrite Q. cbn [obind].
  change ((0 <? 0)%Z) with false. cbv iota. destruct (moved_arrived base h l h' (IList p xs) W (proj1 (proj2 E)) O A) as [F M]; [intros F Ow; split; assumption|].
  do 3 eexists. split; [reflexivity|]. split; [exact M|]. apply K. assumption.
Qed.
Lemma coop_load n l rd path tx kfail p' : heap_string h0 path = Ok tx -> rd tx = Some dl -> coop n 3 p' l ->
  coop (S n) 2 (Step (fun h (_ : N) => obind (h_file_to_x509buf rd h path) (fun x => let (ld, h) := x in if ld =? 0 then Ok (h, ld, kfail) else Ok (h, ld, p')))) l.
Proof.
  intros Hp Hd K. cbn [PConcurrentMasa.coop Nat.eqb]. intros h ld E O. pose proof (proj1 E) as W. pose proof (ext_plenty _ _ E PL0) as PL.
  pose proof (cert_arrives rd h path tx W PL (ext_string _ _ _ _ W0 E Hp)) as A. rewrite Hd in A.
  destruct A as (c & h' & Q & C0 & (Ex & F & S) & B). rewrite Q. cbn [obind]. rewrite (proj2 (N.eqb_neq _ _) C0).
  pose proof S as ((W' & _ & L) & Ow & ND & Bd). assert (EF : oprint [(OArr c, F)] = F) by (unfold oprint; cbn [map List.concat snd]; apply app_nil_r). rewrite EF in *.
  exists h', c, p', F. split; [reflexivity|]. split; [|split; [intros a Ha; apply Bd; exact Ha|exact K]]. apply moved_new; try assumption.
  - apply E.
  - intros a Ha La. apply (L a Ha). exact La.
  - intros a Ha. split; [apply Bd; exact Ha|]. eapply st_low; [exact S|]. rewrite EF. exact Ha.
  - split; [inversion Ow; subst; assumption|exact B].
Qed.
End Steps.

Section Masa.
Variables (o : ossl) (w : world) (c : masa_conf) (f : masa_files) (h0 : heap) (body : bytes).
Hypotheses (OS : ossl_sane o) (WO : world_ok w) (W0 : heap_wf h0) (PL0 : plenty h0) (MC : masa_config h0 c f) (Bb : bytes_ok body) (US : masa_usable w f).
Notation good := (fun s r => masa_answer o w f body (s, r)).
Notation bad := (masa_crash w f body).

Lemma usable_list p ts : path_list h0 p ts -> In ts (masa_lists f) -> exists xs, cert_list (w_cert w) ts xs.
Proof.
  intros Hp Hi. destruct US as (_ & _ & _ & _ & NM). rewrite Forall_forall in NM. specialize (NM _ Hi).
  destruct (list_arrives (w_cert w) h0 _ ts W0 PL0 Hp) as [(? & ? & xs & _ & _ & _ & CL & _)|(? & ? & _ & _ & _ & _ & _ & Mi)]; [exists xs; exact CL|contradiction].
Qed.
Lemma crash_usable : bad <-> bad_padding (c_string body).
Proof.
  destruct US as (U1 & U2 & U3 & U4 & NM). split; [|intros Q; split; [exact U1|left; exact Q]]. intros [_ [Q|(_ & _ & _ & Q)]]; [exact Q|]. exfalso.
  rewrite Forall_forall in NM. apply Exists_exists in Q. destruct Q as (ts & Hi & Mi). exact (NM ts Hi Mi).
Qed.

Lemma masa_coop dl : w_cert w (mf_ldevid f) = Some dl -> exists R, (R = 12%nat /\ ~ voucher_due o w f body \/ R = 13%nat /\ voucher_due o w f body) /\ coop h0 dl good bad R 30 0 (masa_steps o w c body) [].
Proof.
  intros El. pose proof crash_usable as CU. pose proof MC as (Cex & Cld & Cce & Cke & Crv & Crs & Cpv & Cps & Cad). pose proof US as (U1 & _ & U3 & U4 & NM). destruct WO as [WC WK].
  destruct (serialize_str2time (mf_expires f)) as [t|] eqn:Et; [|congruence]. destruct (w_cert w (mf_cert f)) as [certd|] eqn:Ec; [|congruence]. destruct (w_key w (mf_key f)) as [keyd|] eqn:Ek; [|congruence]. clear U1 U3 U4.
  destruct (usable_list _ _ Crv ltac:(cbn [masa_lists In]; auto 6)) as [lrv CLrv]. destruct (usable_list _ _ Crs ltac:(cbn [masa_lists In]; auto 6)) as [lrs CLrs]. destruct (usable_list _ _ Cpv ltac:(cbn [masa_lists In]; auto 6)) as [lpv CLpv].
  destruct (usable_list _ _ Cps ltac:(cbn [masa_lists In]; auto 6)) as [lps CLps]. destruct (usable_list _ _ Cad ltac:(cbn [masa_lists In]; auto 8)) as [lad CLad].
  assert (NMs : forall ts, In ts (masa_lists f) -> ~ missing (w_cert w) ts) by (rewrite Forall_forall in NM; exact NM). clear NM.
  (* what signing gives *)
  assert (SIGN : exists v, match rfc_decode (c_string body) with Some d => sign_masa_pledge_voucher o (Some (ba_of d)) (Some t) (Some (fun _ _ => (0%Z, ba_of dl))) (Some (ba_of certd)) (Some (ba_of keyd)) lrv lrs lpv lps lad | None => Ok None end = Ok v /\
    match v with
    | Some v => (exists m, rfc_decode (c_string body) = Some m /\ masa_issues o w f m v) /\ bytes_ok v /\ forall m cms, rfc_decode (c_string body) = Some m -> masa_issues o w f m cms -> cms = v
    | None => ~ voucher_due o w f body
    end).
  { destruct (rfc_decode (c_string body)) as [m|] eqn:Ed.
    2:{ exists None. split; [reflexivity|]. intros (m & cms & Q & _). congruence. }
    destruct (masa_safe o (Some (ba_of m)) (Some t) (Some (fun _ _ => (0%Z, ba_of dl))) (Some (ba_of certd)) (Some (ba_of keyd)) lrv lrs lpv lps lad OS) as [v Ev];
      [apply ba_bytes_of; eapply rfc_decode_bytes; exact Ed|apply ba_bytes_of; apply (WC _ _ Ec)|apply ba_bytes_of; apply (WK _ _ Ek)|intros g s regs Eg; injection Eg as <-; apply ba_bytes_of; apply (WC _ _ El)|].
    assert (RUN : forall m' cms', Some m = Some m' -> masa_issues o w f m' cms' -> v = Some cms').
    { intros m' cms' Em I. apply masa_issues_runs in I; [|exact OS]. destruct I as (t' & ldc' & cert' & key' & rv' & rs' & pv' & ps' & add' & R1 & R2 & R3 & R4 & R5 & R6 & R7 & R8 & R9 & R10). injection Em as <-.
      rewrite (cert_list_fun _ _ _ _ CLrv R5), (cert_list_fun _ _ _ _ CLrs R6), (cert_list_fun _ _ _ _ CLpv R7), (cert_list_fun _ _ _ _ CLps R8), (cert_list_fun _ _ _ _ CLad R9) in Ev.
      assert (t' = t) as -> by congruence. assert (ldc' = dl) as -> by congruence. assert (cert' = certd) as -> by congruence. assert (key' = keyd) as -> by congruence. congruence. }
    exists v. split; [exact Ev|]. destruct v as [v|].
    - assert (RV : masa_runs o w f m v) by (exists t, dl, certd, keyd, lrv, lrs, lpv, lps, lad; auto 20). split; [exists m; split; [reflexivity|apply masa_runs_issues; assumption]|]. split; [eapply masa_runs_bytes; eassumption|].
      intros m' cms' Q I. specialize (RUN _ _ Q I). congruence.
    - intros (m' & cms' & Q & I). rewrite Ed in Q. specialize (RUN _ _ Q I). discriminate. }
  destruct SIGN as (v & Ev & SV).
  set (R := match v with Some _ => 13%nat | None => 12%nat end). exists R.
  assert (RC : (R = 12%nat /\ v = None) \/ (R = 13%nat /\ exists v', v = Some v')) by (unfold R; destruct v as [v'|]; [right; split; [reflexivity|exists v'; reflexivity]|left; auto]).
  split. { destruct v as [v|]; [right; split; [reflexivity|]; destruct SV as ((m & Q1 & Q2) & _); exists m, v; auto|left; auto]. }
  clearbody R. assert (RN : forall k, (k < 11)%nat -> S k <> R) by (intros k Hk; destruct RC as [[-> _]|[-> _]]; lia).
  unfold masa_steps. cbv zeta. rewrite c_str_ok. cbn [obind].
  (* the expiry time *)
  apply coop_alone; [lia|lia|apply RN; lia|]. intros h ld E O. right. pose proof (proj1 E) as W.
  assert (X : opt_string h (mc_expires c) = Ok (mf_expires f)) by (apply (ext_config _ _ _ _ W0 E MC)). rewrite X. cbn [obind]. rewrite Et.
  do 3 eexists. split; [reflexivity|]. split; [apply moved_still; assumption|]. clear h ld E O W X.
  (* the body *)
  apply coop_alone; [lia|lia|apply RN; lia|]. intros h ld E O. right. pose proof (proj1 E) as W. pose proof (ext_plenty _ _ E PL0) as PL.
  assert (DEC : exists rc cms h' x F, h_base64str2array h (c_string body) = Ok (rc, cms, h') /\ moved (hp_next h0) h [] h' [(x, F)] /\ ow x = OBuf cms /\
    match rfc_decode (c_string body) with Some d => rc = Z.of_N (blen d) /\ x = IBuf cms (Some d) | None => rc = (-1)%Z end /\
    (~ bad /\ solid x \/ bad /\ ~ solid x)).
  { rewrite PAcquire.decode_bad in CU. pose proof (decode_arrives h (c_string body) W PL (c_string_bytes _ Bb)) as D. pose proof (decode_cells h (c_string body) W PL (c_string_bytes _ Bb)) as D2. destruct (rfc_decode (c_string body)) as [m|] eqn:Ed.
    - destruct D as (cms & h1 & E1 & P0 & A1 & LB). destruct (moved_arrived (hp_next h0) h [] h1 (IBuf cms (Some m)) W (proj1 (proj2 E)) O A1) as [F M]; [intros G Og; split; assumption|].
      exists (Z.of_N (blen m)), cms, h1, (IBuf cms (Some m)), F. split; [exact E1|]. split; [exact M|]. split; [reflexivity|]. split; [auto|]. left. split; [rewrite CU; intros [Q _]; discriminate|exact Logic.I].
    - clear D. destruct (filter b64_relevant (c_string body)) as [|y r].
      + exists (-1)%Z, 0, h, (IBuf 0 None), []. split; [exact D2|]. split; [|split; [reflexivity|split; [reflexivity|left; split; [rewrite CU; intros [_ Q]; congruence|exact Logic.I]]]].
        pose proof (moved_still _ _ _ W O) as (M1 & M2 & M3 & M4 & _ & M6 & M7). split; [exact M1|]. split; [exact M2|]. split; [exact M3|]. split; [exact M4|]. split; [|auto]. split; [|split; [constructor|intros a []]].
        constructor; [|constructor]. split; [left; auto|reflexivity].
      + destruct D2 as (p & h1 & E1 & Pn & P0 & N1 & O1 & W1 & C1 & X1). exists (-1)%Z, p, h1, (IGone p), [p]. split; [exact E1|]. split; [|split; [reflexivity|split; [reflexivity|right; split; [apply CU; split; [reflexivity|discriminate]|auto]]]].
        apply moved_new; try assumption.
        * apply E.
        * split; [exact W1|]. split; [lia|]. split; [|exact O1]. intros a Ha. apply X1. lia.
        * intros a Ha [b Hb]. destruct (N.eq_dec a p) as [->|Ne]; [congruence|]. rewrite X1 in Hb by exact Ne. destruct W as (_ & _ & W). rewrite W in Hb by exact Ha. discriminate.
        * constructor; [intros []|constructor].
        * intros a [<-|[]]. lia.
        * split; [exact P0|]. split; [reflexivity|exact C1]. }
  destruct DEC as (rc & cms & h' & x & Fx & E1 & M1 & Ox & Dx & CASES). rewrite E1. cbn [obind].
  do 3 eexists. split; [reflexivity|]. split; [exact M1|]. clear h ld E O W PL h' E1 M1.
  unfold h_file_to_cert, h_file_to_keybuf.
  eapply coop_load; [exact W0|exact PL0|exact Cld|exact El|].
  eapply coop_cert; [exact W0|exact PL0|lia|lia|apply RN; lia|exact Cce|exact Ec|]. intros cert Fcert C0.
  eapply coop_cert; [exact W0|exact PL0|lia|lia|apply RN; lia|exact Cke|exact Ek|]. intros key Fkey K0.
  eapply (coop_list h0 dl _ _ R W0 PL0 _ _ _ (w_cert w) _ _ (fun rv => release_steps [OArr cert; OArr key; OList rv; OList 0; OList 0; OList 0; OList 0; OBuf cms; OArr 0] 400%Z [])); [lia|lia|apply RN; lia|exact Crv|apply NMs; cbn [masa_lists In]; auto 6|]. intros xrv rv Frv Q. rewrite <- (cert_list_fun _ _ _ _ CLrv Q) in *. clear Q xrv.
  eapply (coop_list h0 dl _ _ R W0 PL0 _ _ _ (w_cert w) _ _ (fun rs => release_steps [OArr cert; OArr key; OList rv; OList rs; OList 0; OList 0; OList 0; OBuf cms; OArr 0] 400%Z [])); [lia|lia|apply RN; lia|exact Crs|apply NMs; cbn [masa_lists In]; auto 6|]. intros xrs rs Frs Q. rewrite <- (cert_list_fun _ _ _ _ CLrs Q) in *. clear Q xrs.
  eapply (coop_list h0 dl _ _ R W0 PL0 _ _ _ (w_cert w) _ _ (fun pv => release_steps [OArr cert; OArr key; OList rv; OList rs; OList pv; OList 0; OList 0; OBuf cms; OArr 0] 400%Z [])); [lia|lia|apply RN; lia|exact Cpv|apply NMs; cbn [masa_lists In]; auto 6|]. intros xpv pv Fpv Q. rewrite <- (cert_list_fun _ _ _ _ CLpv Q) in *. clear Q xpv.
  eapply (coop_list h0 dl _ _ R W0 PL0 _ _ _ (w_cert w) _ _ (fun ps => release_steps [OArr cert; OArr key; OList rv; OList rs; OList pv; OList ps; OList 0; OBuf cms; OArr 0] 400%Z [])); [lia|lia|apply RN; lia|exact Cps|apply NMs; cbn [masa_lists In]; auto 6|]. intros xps ps Fps Q. rewrite <- (cert_list_fun _ _ _ _ CLps Q) in *. clear Q xps.
  eapply (coop_list h0 dl _ _ R W0 PL0 _ _ _ (w_cert w) _ _ (fun ad => release_steps [OArr cert; OArr key; OList rv; OList rs; OList pv; OList ps; OList ad; OBuf cms; OArr 0] 400%Z [])); [lia|lia|apply RN; lia|exact Cad|apply NMs; cbn [masa_lists In]; auto 8|]. intros xad ad Fad Q. rewrite <- (cert_list_fun _ _ _ _ CLad Q) in *. clear Q xad.
  set (l0 := [(IList ad lad, Fad); (IList ps lps, Fps); (IList pv lpv, Fpv); (IList rs lrs, Frs); (IList rv lrv, Frv); (IArr key (Some (ba_of keyd)), Fkey); (IArr cert (Some (ba_of certd)), Fcert); (x, Fx)]).
  (* the clean-up *)
  assert (NULL : forall h, holds h (IArr 0 None) []) by (intros hh; split; [left; auto|reflexivity]).
  assert (BYE : forall k l s r xs, (List.length l <= k)%nat -> In (x, Fx) l -> Forall (fun e => e = (x, Fx) \/ solid (fst e)) l -> (~ bad -> good s r) -> xs = map (fun e => ow (fst e)) l -> fine h0 good bad k (clean_steps xs (Ret s r)) l).
  { intros k l s r xs Lk Hi Sl G ->. apply fine_clean; [exact Lk|]. destruct CASES as [[NB Sx]|[B Sx]].
    - right. split; [|auto]. eapply Forall_impl; [|exact Sl]. intros e [->|Q]; [exact Sx|exact Q].
    - left. split; [exact B|]. apply Exists_exists. exists (x, Fx). auto. }
  assert (FAIL : forall k, (9 <= k)%nat -> (~ bad -> good 400%Z []) -> fine h0 good bad k (clean_steps [OArr cert; OArr key; OList rv; OList rs; OList pv; OList ps; OList ad; OBuf cms; OArr 0] (Ret 400%Z [])) l0).
  { intros k Lk G. apply (fine_null _ _ _ _ _ _ _ NULL). eapply fine_perm; [|apply (BYE k [(IArr cert (Some (ba_of certd)), Fcert); (IArr key (Some (ba_of keyd)), Fkey); (IList rv lrv, Frv); (IList rs lrs, Frs); (IList pv lpv, Fpv); (IList ps lps, Fps); (IList ad lad, Fad); (x, Fx); (IArr 0 None, [])])].
    - unfold l0. perm.
    - cbn [List.length]. lia.
    - cbn [In]. auto 12.
    - repeat (apply Forall_cons; [first [left; reflexivity|right; exact Logic.I]|]). apply Forall_nil.
    - exact G.
    - cbn [map fst ow]. rewrite Ox. reflexivity. }
  (* the certificate is read and the voucher signed *)
  apply coop_read. intros h ld E Ow. pose proof (proj1 E) as W. pose proof (ext_plenty _ _ E PL0) as PL. pose proof (proj1 (proj2 E)) as Bn. split.
  2:{ intros L0 C. destruct (freed_cb h ld L0 C) as [k Q]. exists k. rewrite Q. reflexivity. }
  intros Fs Hs. right. destruct (shared_cell _ _ _ _ Hs) as [L0 _]. destruct Hs as [_ Bs]. rewrite (pinned_cb h ld dl L0 Bs). cbn [obind].
  assert (GET : forall e, In e l0 -> holds h (fst e) (snd e)) by (intros [y G] Hi; exact (own_get _ _ _ _ _ Ow Hi)).
  destruct (GET (IArr cert (Some (ba_of certd)), Fcert)) as [_ B1]; [cbn [l0 In]; auto 12|]. cbn [fst snd] in B1. rewrite B1. cbn [obind].
  destruct (GET (IArr key (Some (ba_of keyd)), Fkey)) as [_ B2]; [cbn [l0 In]; auto 12|]. cbn [fst snd] in B2. rewrite B2. cbn [obind].
  destruct (GET (IList rv lrv, Frv)) as [_ B3]; [cbn [l0 In]; auto 12|]. cbn [fst snd] in B3. rewrite B3. cbn [obind].
  destruct (GET (IList rs lrs, Frs)) as [_ B4]; [cbn [l0 In]; auto 12|]. cbn [fst snd] in B4. rewrite B4. cbn [obind].
  destruct (GET (IList pv lpv, Fpv)) as [_ B5]; [cbn [l0 In]; auto 12|]. cbn [fst snd] in B5. rewrite B5. cbn [obind].
  destruct (GET (IList ps lps, Fps)) as [_ B6]; [cbn [l0 In]; auto 12|]. cbn [fst snd] in B6. rewrite B6. cbn [obind].
  destruct (GET (IList ad lad, Fad)) as [_ B7]; [cbn [l0 In]; auto 12|]. cbn [fst snd] in B7. rewrite B7. cbn [obind].
  assert (CMS : forall A (g : option barray -> outcome (option A)), with_cms h rc cms g = match rfc_decode (c_string body) with Some d => g (Some (ba_of d)) | None => Ok None end).
  { intros A g. pose proof (GET (x, Fx)) as Hx. cbn [fst snd] in Hx. destruct (rfc_decode (c_string body)) as [d|]; [|rewrite Dx; reflexivity]. destruct Dx as [-> ->]. apply with_cms_ok. apply Hx. cbn [l0 In]. auto 12. }
  rewrite CMS, Ev. cbn [obind]. clear CMS GET B1 B2 B3 B4 B5 B6 B7 Bs.
  destruct v as [v|].
  2:{ destruct RC as [[-> _]|[_ [v' Q]]]; [|discriminate]. do 3 eexists. split; [reflexivity|]. split; [apply moved_still; eassumption|]. apply coop_release; [reflexivity|lia|]. apply FAIL; [lia|]. intros _. right. split; [reflexivity|]. split; [reflexivity|].
      intros (m & cms' & Q1 & Q2 & _). apply SV. exists m, cms'. auto. }
  destruct RC as [[_ Q]|[-> _]]; [discriminate|]. destruct SV as ((m & Ed & IS) & Bv & UN).
  destruct (new_array_arrives h v W PL) as (vo & h8 & E8 & V0 & A8 & B8). rewrite E8. cbn [obind]. rewrite (proj2 (N.eqb_neq _ _) V0).
  destruct (moved_arrived _ h _ h8 (IArr vo (Some (ba_of v))) W Bn Ow A8) as [Fvo M8]; [intros G Og; split; assumption|].
  do 3 eexists. split; [reflexivity|]. split; [exact M8|]. clear h ld E Ow W PL Bn Fs L0 h8 E8 A8 B8 M8.
  (* the text *)
  apply coop_alone; [lia|lia|lia|]. intros h ld E Ow. pose proof (proj1 E) as W. pose proof (ext_plenty _ _ E PL0) as PL. right. pose proof (own_get _ _ _ _ _ Ow (or_introl eq_refl)) as [_ B8].
  destruct (encode_step h vo v W PL Bv B8) as (h9 & E9 & Xf & Sf). rewrite E9. cbn [obind]. pose proof (moved_ext _ _ _ _ W Ow Xf Sf) as M9.
  destruct (blen v <? SIZE_MAX / 4) eqn:Lv.
  - do 3 eexists. split; [reflexivity|]. split; [exact M9|]. apply coop_release; [reflexivity|lia|].
    eapply fine_perm; [|apply (BYE _ [(IArr key (Some (ba_of keyd)), Fkey); (IArr cert (Some (ba_of certd)), Fcert); (IList rv lrv, Frv); (IList rs lrs, Frs); (IList pv lpv, Fpv); (IList ps lps, Fps); (IList ad lad, Fad); (x, Fx); (IArr vo (Some (ba_of v)), Fvo)])].
    + unfold l0. perm.
    + cbn [List.length]. lia.
    + cbn [In]. auto 12.
    + repeat (apply Forall_cons; [first [left; reflexivity|right; exact Logic.I]|]). apply Forall_nil.
    + intros _. left. split; [reflexivity|]. exists m, v. auto.
    + cbn [map fst ow]. rewrite Ox. reflexivity.
  - do 3 eexists. split; [reflexivity|]. split; [exact M9|]. apply coop_release; [reflexivity|lia|].
    eapply fine_perm; [|apply (BYE _ [(IArr cert (Some (ba_of certd)), Fcert); (IArr key (Some (ba_of keyd)), Fkey); (IList rv lrv, Frv); (IList rs lrs, Frs); (IList pv lpv, Fpv); (IList ps lps, Fps); (IList ad lad, Fad); (x, Fx); (IArr vo (Some (ba_of v)), Fvo)])].
    + unfold l0. perm.
    + cbn [List.length]. lia.
    + cbn [In]. auto 12.
    + repeat (apply Forall_cons; [first [left; reflexivity|right; exact Logic.I]|]). apply Forall_nil.
    + intros _. right. split; [reflexivity|]. split; [reflexivity|]. intros (m' & cms' & Q1 & Q2 & Q3). rewrite (UN _ _ Q1 Q2) in Q3. lia.
    + cbn [map fst ow]. rewrite Ox. reflexivity.
Qed.
End Masa.
