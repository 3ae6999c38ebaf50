(** Proofs about the memory of request.c: the pledge's check of the voucher. *)
From Coq Require Import Permutation ZifyBool ZifyNat ZifyN.
From Verif Require Import Base PBase MBase64 MSerialize MOs MJsmn MVoucher SVoucher PVoucher SJson PVoucherText PVoucherRound MCrypto MRequest SRequest PRequest PRequest2 PRequest3 PRequest4
  MHeap MArray MVoucherHeap MConfig MHandlers MSerialHeap MRequestHeap SHeap SArray SVoucherHeap SSerialHeap PHeap PArray PBlocks POwn PHold
  PVoucherHeap PVoucherHeapJson PVoucherHeapOom PAcquire PSerialHeap PSerialHeap3 PSerialHeap4 SRequestHeap PRequestHeap PRequestHeap2 PRequestHeap3 PRequestHeap4 PRequestHeap6.
Open Scope N_scope.

Lemma hold_write : forall base h L a b, hold base h L -> is_live h a -> hold base (put h a (Live b)) L.
Proof.
  intros base h L a b (W & B & D & G & V) La. pose proof (live_nz _ _ W La) as A0. destruct La as [c Hc]. split; [eapply wf_write; eauto|]. split; [exact B|]. split; [exact D|]. split; [exact G|].
  intros x Hx. rewrite <- (V x Hx). unfold is_live. destruct (N.eq_dec x a) as [->|Ne].
  - rewrite put_same. split; intros _; eexists; [exact Hc|reflexivity].
  - rewrite put_other by exact Ne. reflexivity.
Qed.

(** An array of the voucher is copied into a struct of two fields. *)
Lemma copy_into : forall base h L dst p0 n0 s so d, hold base h L -> dst <> 0 -> hp_cell h dst = Live (Struct [P p0; I n0]) -> array_at h (s, so) (Some (ba_of d)) -> dst <> s ->
  exists rc h', h_copy_binary_array h (dst, 0%nat) (s, so) = Ok (rc, h') /\ hp_next h' = hp_next h + 1 /\ hp_oom h' = hp_oom h /\ (forall a, a <> dst -> a < hp_next h -> hp_cell h' a = hp_cell h a) /\
    ((rc = (-1)%Z /\ hp_oom h (hp_next h) = true /\ hp_cell h' dst = Live (Struct [P 0; I 0]) /\ hold base h' L) \/
     (rc = 0%Z /\ hp_oom h (hp_next h) = false /\ hp_cell h' dst = Live (Struct [P (hp_next h); I (Z.of_N (blen d))]) /\ hp_cell h' (hp_next h) = Live (Buf d) /\ hold base h' (hp_next h :: L))).
Proof.
  intros base h L dst p0 n0 s so d H D0 Cd (S0 & fs & p & Cs & N1 & N2 & Dp) Ds. cbn [ba_of ba_data ba_len fst snd] in *. destruct Dp as (P0 & Cp & _).
  pose proof (hold_wf _ _ _ H) as W. assert (Ld : is_live h dst) by (eexists; exact Cd). pose proof (live_below _ _ W Ld) as Dn.
  assert (Dp : dst <> p) by (intros ->; congruence). unfold h_copy_binary_array. cbn [fst snd]. rewrite (proj2 (N.eqb_neq _ _) S0).
  erewrite set_field_at; [|exact D0|exact Cd|reflexivity]. cbn [obind set_nthv Nat.add]. set (h1 := put h dst (Live (Struct [P p0; I 0]))).
  assert (C1 : forall a, a <> dst -> hp_cell h1 a = hp_cell h a) by (intros a Ha; apply put_other; exact Ha).
  assert (Cs1 : hp_cell h1 s = Live (Struct fs)) by (rewrite C1 by congruence; exact Cs).
  rewrite (get_ptr_at h1 s fs so p S0 Cs1 N1). cbn [obind]. rewrite (get_int_at h1 s fs (so + 1) _ S0 Cs1 N2). cbn [obind]. rewrite N2Z.id.
  assert (H1 : hold base h1 L) by (apply hold_write; assumption).
  assert (C1d : hp_cell h1 dst = Live (Struct [P p0; I 0])) by apply put_same.
  unfold heap_memdup. rewrite (proj2 (N.eqb_neq _ _) P0). assert (Nx : hp_next h1 = hp_next h) by reflexivity. assert (Ox : hp_oom h1 = hp_oom h) by reflexivity. rewrite Ox, Nx.
  destruct (hp_oom h (hp_next h)) eqn:Oo.
  - destruct (hold_alloc _ _ _ (Buf []) H1) as (c & h2 & Ea & X2 & Hn2 & Cc). rewrite Ea. cbn [obind]. destruct Cc as [(-> & _ & Cx & H2)|(_ & _ & Q & _)]; [|rewrite Ox, Nx in Q; congruence].
    erewrite set_field_at; [|exact D0|rewrite Cx; exact C1d|reflexivity]. cbn [obind set_nthv N.eqb]. eexists _, _. split; [reflexivity|]. split; [cbn [put hp_next]; lia|]. split; [cbn [put hp_oom]; destruct X2 as (_ & _ & _ & O2); congruence|].
    split; [intros a Ha _; rewrite put_other by exact Ha; rewrite Cx; apply C1; exact Ha|]. left. split; [reflexivity|]. split; [reflexivity|]. split; [apply put_same|]. apply hold_write; [exact H2|]. eexists. rewrite Cx. exact C1d.
  - unfold load_buf. rewrite (proj2 (N.eqb_neq _ _) P0). rewrite C1 by congruence. rewrite Cp. cbn [obind sys_memdup negb]. unfold take_mem. rewrite N.leb_refl. unfold blen at 1. rewrite Nat2N.id, firstn_all. cbn [obind].
    destruct (hold_alloc _ _ _ (Buf d) H1) as (c & h2 & Ea & X2 & Hn2 & Cc). rewrite Ea. cbn [obind]. destruct Cc as [(_ & Q & _)|(Hc & C0 & _ & Cc & Cx & H2)]; [rewrite Ox, Nx in Q; congruence|]. rewrite Nx in Hc.
    assert (Dc : dst <> c) by lia. erewrite set_field_at; [|exact D0|rewrite Cx by exact Dc; exact C1d|reflexivity]. cbn [obind set_nthv]. rewrite (proj2 (N.eqb_neq _ _) C0).
    assert (Sc : s <> c) by (assert (is_live h s) as Ls by (eexists; exact Cs); pose proof (live_below _ _ W Ls); lia).
    erewrite get_int_at; [|exact S0|rewrite put_other by congruence; rewrite Cx by exact Sc; exact Cs1|exact N2]. cbn [obind].
    erewrite set_field_at; [|exact D0|apply put_same|reflexivity]. cbn [obind set_nthv]. eexists _, _. split; [reflexivity|]. split; [cbn [put hp_next]; lia|]. split; [cbn [put hp_oom]; destruct X2 as (_ & _ & _ & O2); congruence|].
    split; [intros a Ha Hb; rewrite !put_other by exact Ha; rewrite Cx by lia; apply C1; exact Ha|]. right. split; [reflexivity|]. split; [reflexivity|]. split; [rewrite put_same, Hc; reflexivity|].
    split; [rewrite !put_other by lia; rewrite <- Hc; exact Cc|]. rewrite <- Hc. assert (L2 : is_live h2 dst) by (eexists; rewrite Cx by exact Dc; exact C1d). apply hold_write; [apply hold_write; [exact H2|exact L2]|]. eexists. apply put_same.
Qed.

(** What is left of the pledge's check. *)
Definition settles (cl : Prop) (want : bool) (h0 : heap) (pin : N) (m : outcome (Z * N * heap)) (t : outcome (option (barray * option certlist))) : Prop :=
  match t with
  | UB _ => True
  | Ok r =>
    match m with
    | UB e => e = NullDeref /\ starved h0
    | Ok (rc, l, h') => heap_wf h' /\ hp_next h0 <= hp_next h' /\ hp_oom h' = hp_oom h0 /\ (forall a, a < hp_next h0 -> a <> pin -> hp_cell h' a = hp_cell h0 a) /\
       ((rc = 0%Z /\ exists d lst b F lk, r = Some (ba_of d, lst) /\ listed h' l lst F /\ pin <> 0 /\ hp_cell h' pin = Live (Struct [P b; I (Z.of_N (blen d))]) /\ hp_cell h' b = Live (Buf d) /\
           hold (hp_next h0) h' (b :: F ++ lk) /\ (cl -> lk = []) /\ (want = false -> F = [])) \/
        (rc = (-1)%Z /\ (r = None \/ refused h0 h') /\ (hp_cell h' pin = hp_cell h0 pin \/ (refused h0 h' /\ hp_cell h' pin = Live (Struct [P 0; I 0]))) /\
           exists L, hold (hp_next h0) h' L /\ (cl -> want = false -> L = [] \/ refused h0 h')))
    end
  end.

Lemma settles_fail : forall (cl : Prop) want h0 pin h l v f F L t, hp_next h0 <= hp_next h -> hp_oom h = hp_oom h0 -> (forall a, a < hp_next h0 -> a <> pin -> hp_cell h a = hp_cell h0 a) -> pin < hp_next h0 ->
  vch h v f F -> hold (hp_next h0) h (F ++ L) -> (t = Ok None \/ refused h0 h) -> (hp_cell h pin = hp_cell h0 pin \/ (refused h0 h /\ hp_cell h pin = Live (Struct [P 0; I 0]))) ->
  (cl -> want = false -> L = [] \/ refused h0 h) -> settles cl want h0 pin (obind (h_free_voucher h v) (fun h => Ok ((-1)%Z, l, h))) t.
Proof.
  intros cl want h0 pin h l v f F L t N1 O1 K1 Hp Hv H Q Qp QL. destruct t as [r|k]; [|exact Logic.I].
  destruct (free_hold (hp_next h0) h v f L) as (h' & E & G & Hn & H' & K); [apply vstate_vch; exists F; split; assumption|]. rewrite E. cbn [obind settles].
  assert (R : refused h0 h -> refused h0 h') by (intros X; eapply refused_later; [exact X|lia]).
  split; [eapply hold_wf; exact H'|]. split; [lia|]. split; [destruct G as (_ & O2 & _); congruence|]. destruct G as (Kg & _ & _). split; [intros a Ha Hne; rewrite Kg by exact Ha; apply K1; assumption|].
  right. split; [reflexivity|]. split; [destruct Q as [Q|Q]; [left; congruence|right; apply R; exact Q]|]. rewrite (Kg pin) by exact Hp.
  split; [destruct Qp as [Qp|[Q1 Q2]]; [left; exact Qp|right; split; [apply R; exact Q1|exact Q2]]|]. exists L. split; [exact H'|]. intros C Y. destruct (QL C Y) as [->|X]; [left; reflexivity|right; apply R; exact X].
Qed.

Lemma barray_at_read : forall h p x, array_at h (p, 0%nat) x -> h_barray h p = Ok x.
Proof. intros h p x H. exact (array_at_read h (p, 0%nat) x H). Qed.

(** The registrar's certificate is checked with the pinned one, which is then copied out. *)
Lemma pledge_tail : forall o (cl : Prop) want h0 pin rtls rt dstore ld h1 mv f Fv F lk l lst w d,
  heap_wf h0 -> array_at h0 (rtls, 0%nat) (Some rt) -> h_certlist h0 dstore = Ok ld ->
  (pin = 0 \/ exists p0 n0, hp_cell h0 pin = Live (Struct [P p0; I n0])) ->
  gentle (hp_next h0) h0 h1 -> vch h1 mv f Fv -> agrees f w -> hold (hp_next h0) h1 (Fv ++ lk ++ F) -> listed h1 l lst F -> (cl -> lk = []) -> (want = false -> F = []) ->
  get_attr_array (Some w) APinned = Some (ba_of d) ->
  settles cl want h0 pin
   (let (copy, h) := local h1 (Struct [P 0; I 0]) in
      obind (h_copy_binary_array h (copy, 0%nat) (mv, 3%nat)) (fun r =>
      let (rc, h) := r in
      if (rc <? 0)%Z then obind (sys_free h copy) (fun h => obind (h_free_voucher h mv) (fun h => Ok ((-1)%Z, l, h)))
      else
      obind (init_array_list h) (fun r =>
      let (certs, h) := r in
      obind (get_ptr h copy 0) (fun p =>
      obind (get_int h copy 1) (fun n =>
      obind (push_array_list h certs p (Z.to_N n) 0) (fun r =>
      let (rc, h) := r in
      if (rc <? 0)%Z then
        obind (free_array_list h certs) (fun h =>
        obind (sys_free h copy) (fun h =>
        obind (h_free_voucher h mv) (fun h => Ok ((-1)%Z, l, h))))
      else
      obind (h_free_binary_array_content h (copy, 0%nat)) (fun h =>
      obind (sys_free h copy) (fun h =>
      obind (h_barray h rtls) (fun tls =>
      obind (h_certlist h certs) (fun lc =>
      obind (h_certlist h dstore) (fun ls =>
      obind (match tls with None => UB NullDeref | Some tls => crypto_verify_cert o tls lc ls end) (fun e =>
      obind (free_array_list h certs) (fun h =>
      if (e <? 0)%Z then obind (h_free_voucher h mv) (fun h => Ok ((-1)%Z, l, h))
      else if pin =? 0 then obind (h_free_voucher h mv) (fun h => Ok ((-1)%Z, l, h))
      else
      obind (h_copy_binary_array h (pin, 0%nat) (mv, 3%nat)) (fun r =>
      let (rc, h) := r in
      obind (h_free_voucher h mv) (fun h => Ok (if (rc <? 0)%Z then (-1)%Z else 0%Z, l, h))))))))))))))))
   (obind (copy_binary_array true ba_null (Some (ba_of d))) (fun c =>
            if (fst c <? 0)%Z then Ok None
            else
              obind (ba_read (snd c)) (fun dd =>
                obind (crypto_verify_cert o rt (Some [(dd, 0%Z)]) ld) (fun e =>
                if (e <? 0)%Z then Ok None
                else if negb (negb (pin =? 0)) then Ok None
                else
                  obind (copy_binary_array true ba_null (Some (ba_of d))) (fun p =>
                  if (fst p <? 0)%Z then Ok None else Ok (Some (snd p, lst))))))).
Proof.
  intros o cl want h0 pin rtls rt dstore ld h1 mv f Fv F lk l lst w d W Art Ald Pin G1 Hv Ag H1 Li HL HF Ed. set (base := hp_next h0) in *.
  assert (Cd : copy_binary_array true ba_null (Some (ba_of d)) = Ok (0%Z, ba_of d)).
  { cbn [copy_binary_array ba_of ba_data ba_len sys_memdup negb]. unfold take_mem. rewrite N.leb_refl. unfold blen at 1. rewrite Nat2N.id, firstn_all. reflexivity. }
  rewrite Cd. cbn [obind fst snd Z.ltb Z.compare].
  assert (Rd : ba_read (ba_of d) = Ok d).
  { unfold ba_read, ba_of. cbn [ba_data ba_len]. destruct (blen d =? 0) eqn:E0; [apply N.eqb_eq in E0; destruct d; [reflexivity|cbn in E0; lia]|]. unfold take_mem. rewrite N.leb_refl. unfold blen. rewrite Nat2N.id, firstn_all. reflexivity. }
  rewrite Rd. cbn [obind]. clear Cd Rd.
  assert (Pn : pin < base).
  { destruct Pin as [->|(p0 & n0 & C)]; [unfold base; destruct W; lia|]. apply live_below; [exact W|eexists; exact C]. }
  set (R := Fv ++ lk ++ F) in *. pose proof (vch_array _ _ _ _ _ APinned _ _ Hv Ag eq_refl Ed) as Am. cbn [arr_field] in Am.
  assert (Vf : forall h, (forall a, In a R -> hp_cell h a = hp_cell h1 a) -> vch h mv f Fv /\ listed h l lst F /\ array_at h (mv, 3%nat) (Some (ba_of d))).
  { intros h K. assert (Vx : vch h mv f Fv) by (eapply vch_frame; [exact Hv|intros a Ha; apply K; unfold R; rewrite !in_app_iff; auto]). split; [exact Vx|]. split; [eapply listed_frame; [exact Li|intros a Ha; apply K; unfold R; rewrite !in_app_iff; auto]|].
    exact (vch_array _ _ _ _ _ APinned _ _ Vx Ag eq_refl Ed). }
  (* failing before the caller's struct is written *)
  assert (Fail : forall h L t, gentle base h0 h -> (forall a, In a R -> hp_cell h a = hp_cell h1 a) -> hold base h (L ++ R) -> (t = Ok None \/ refused h0 h) -> (L = [] \/ refused h0 h) ->
    settles cl want h0 pin (obind (h_free_voucher h mv) (fun h => Ok ((-1)%Z, l, h))) t).
  { intros h L t G K H Q QL. destruct (Vf h K) as (Vx & _ & _). destruct G as (Kg & Og & Ng). eapply (settles_fail cl want h0 pin h l mv f Fv (L ++ lk ++ F)); [exact Ng|exact Og|intros a Ha _; apply Kg; exact Ha|exact Pn|exact Vx| |exact Q|left; apply Kg; exact Pn|].
    - eapply hold_perm; [|exact H]. unfold R. apply Permutation_app_swap_app.
    - intros C Y. destruct QL as [->|X]; [left; cbn [app]; rewrite (HL C), (HF Y); reflexivity|right; exact X]. }
  destruct (local h1 (Struct [P 0; I 0])) as [copy h2] eqn:El. destruct (PRequestHeap6.hold_local _ _ _ _ _ _ H1 El) as (E2 & -> & C0 & N2 & Cc2 & K2 & H2). pose proof (gentle_ext _ _ _ _ H1 E2) as G12. pose proof (gentle_trans _ _ _ _ G1 G12) as G2.
  set (copy := hp_next h1) in *.
  assert (R1 : forall a, In a R -> a < copy) by (intros a Ha; apply (hold_in _ _ _ a H1 Ha)).
  assert (KR2 : forall a, In a R -> hp_cell h2 a = hp_cell h1 a) by (intros a Ha; apply K2; apply (hold_in _ _ _ a H1 Ha)).
  destruct (Vf h2 KR2) as (Hv2 & _ & Am2). assert (Mv : In mv R) by (unfold R; apply in_or_app; left; destruct Hv as (fs & _ & _ & _ & _ & ->); left; reflexivity).
  assert (Cm : copy <> mv) by (pose proof (R1 _ Mv); lia).
  destruct (copy_into base h2 (copy :: R) copy 0 0%Z mv 3%nat d H2 C0 Cc2 Am2 Cm) as (rc & h3 & Ec & N3 & O3 & K3 & Cs). rewrite Ec. cbn [obind].
  assert (Bc : base <= copy) by apply G1.
  assert (G3 : gentle base h0 h3) by (eapply gentle_trans; [exact G2|]; split; [intros a Ha; apply K3; lia|]; split; [exact O3|lia]).
  assert (KR3 : forall a, In a R -> hp_cell h3 a = hp_cell h1 a) by (intros a Ha; pose proof (R1 a Ha); rewrite K3 by lia; apply KR2; exact Ha).
  assert (On : forall h', gentle base h0 h' -> hp_oom h0 = hp_oom h') by (intros h' G'; symmetry; apply G').
  destruct Cs as [(-> & Oo & Cc3 & H3)|(-> & Oo & Cc3 & Cb3 & H3)]; cbn [Z.ltb Z.compare].
  { destruct (hold_free _ _ _ _ H3) as [Ef Hf]. rewrite Ef. cbn [obind]. assert (Rf : refused h0 (put h3 copy Freed)) by (exists (hp_next h2); rewrite (On _ G2); split; [split; [apply G2|cbn [put hp_next]; lia]|exact Oo]).
    apply (Fail _ []); [eapply gentle_trans; [exact G3|eapply gentle_put; [exact H3|left; reflexivity]]|intros a Ha; pose proof (R1 a Ha); rewrite put_other by lia; apply KR3; exact Ha|exact Hf|right; exact Rf|left; reflexivity]. }
  set (c := hp_next h2) in *. assert (Cc : c = copy + 1) by exact N2.
  pose proof (hold_wf _ _ _ H3) as W3. destruct (init_alist h3 W3) as (certs & h4 & Ei & W4 & N4 & O4 & C4). rewrite Ei. cbn [obind].
  destruct C4 as [(-> & Oo4 & Cx)|(Hl & L0 & Oo4 & AL & Cx)].
  { rewrite (get_ptr_at h4 copy [P c; I (Z.of_N (blen d))] 0%nat c C0) by (rewrite ?Cx; solve [exact Cc3|reflexivity]). cbn [obind].
    rewrite (get_int_at h4 copy [P c; I (Z.of_N (blen d))] 1%nat (Z.of_N (blen d)) C0) by (rewrite ?Cx; solve [exact Cc3|reflexivity]). cbn [obind push_array_list N.eqb].
    replace (push_array_list h4 0 c (Z.to_N (Z.of_N (blen d))) 0) with (Ok ((-1)%Z, h4)) by reflexivity. cbn [obind Z.ltb Z.compare].
    replace (free_array_list h4 0) with (Ok h4) by reflexivity. cbn [obind].
    assert (H4 : hold base h4 (copy :: c :: R)) by (eapply hold_same; [eapply hold_perm; [apply perm_swap|exact H3]|exact W4|lia|intros a _; apply Cx]).
    destruct (hold_free _ _ _ _ H4) as [Ef Hf]. rewrite Ef. cbn [obind]. assert (Rf : refused h0 (put h4 copy Freed)) by (exists (hp_next h3); rewrite (On _ G3); split; [split; [apply G3|cbn [put hp_next]; lia]|exact Oo4]).
    assert (G4 : gentle base h0 h4) by (eapply gentle_trans; [exact G3|]; split; [intros a _; apply Cx|]; split; [exact O4|lia]).
    apply (Fail _ [c]); [eapply gentle_trans; [exact G4|eapply gentle_put; [exact H4|left; reflexivity]]|intros a Ha; pose proof (R1 a Ha); rewrite put_other by lia; rewrite Cx; apply KR3; exact Ha|exact Hf|right; exact Rf|right; exact Rf]. }
  assert (Hcl : certs = copy + 2) by lia.
  assert (Cc4 : hp_cell h4 copy = Live (Struct [P c; I (Z.of_N (blen d))])) by (rewrite Cx by lia; exact Cc3). assert (Cb4 : hp_cell h4 c = Live (Buf d)) by (rewrite Cx by lia; exact Cb3).
  rewrite (get_ptr_at h4 copy _ 0%nat c C0 Cc4 eq_refl). cbn [obind]. rewrite (get_int_at h4 copy _ 1%nat (Z.of_N (blen d)) C0 Cc4 eq_refl). cbn [obind]. rewrite N2Z.id.
  assert (G4 : gentle base h0 h4) by (eapply gentle_trans; [exact G3|]; split; [intros a Ha; apply Cx; lia|]; split; [exact O4|lia]).
  assert (KR4 : forall a, In a R -> hp_cell h4 a = hp_cell h1 a) by (intros a Ha; pose proof (R1 a Ha); rewrite Cx by lia; apply KR3; exact Ha).
  assert (H4 : hold base h4 ([certs] ++ c :: copy :: R)).
  { cbn [app]. pose proof H3 as (_ & B3 & D3 & Gb3 & V3). split; [exact W4|]. split; [lia|]. split; [constructor; [intros X; destruct (hold_in _ _ _ _ H3 X) as (_ & _ & Y & _); lia|exact D3]|].
    split; [intros a [<-|Ha]; [lia|apply Gb3; exact Ha]|]. intros a Ha. destruct (N.eq_dec a certs) as [->|Ne].
    - split; [intros _; left; reflexivity|]. intros _. eapply alist_live; [exact AL|left; reflexivity].
    - unfold is_live. rewrite Cx by exact Ne. change ((exists y, hp_cell h3 a = Live y) <-> In a (certs :: c :: copy :: R)). rewrite (V3 a Ha). cbn [In]. split; [auto|intros [X|X]; [congruence|exact X]]. }
  destruct (push_hold base h4 certs [] [certs] (c :: copy :: R) c d (blen d) 0%Z H4 AL ltac:(lia) Cb4 (N.le_refl _)) as [(Oo5 & h5 & Ep & N5 & O5 & Cx5 & H5 & AL5)|[(Oo5 & Ep)|(h5 & F' & Ep & N5 & O5 & Cx5 & H5 & AL5)]]; rewrite Ep; cbn [obind].
  { cbn [Z.ltb Z.compare]. destruct (free_alist_hold _ _ _ _ _ _ H5 AL5) as (h6 & E6 & G56 & W6 & N6 & K6 & H6). rewrite E6. cbn [obind].
    assert (H6' : hold base h6 (copy :: c :: R)) by (eapply hold_perm; [apply perm_swap|exact H6]). destruct (hold_free _ _ _ _ H6') as [Ef Hf]. rewrite Ef. cbn [obind].
    assert (G6 : gentle base h0 h6) by (eapply gentle_trans; [exact G4|eapply gentle_trans; [|exact G56]]; split; [intros a _; apply Cx5|]; split; [exact O5|lia]).
    assert (Rf : refused h0 (put h6 copy Freed)) by (exists (hp_next h4); rewrite (On _ G4); split; [split; [apply G4|cbn [put hp_next]; lia]|exact Oo5]).
    apply (Fail _ [c]); [eapply gentle_trans; [exact G6|eapply gentle_put; [exact H6'|left; reflexivity]]| |exact Hf|right; exact Rf|right; exact Rf].
    intros a Ha. pose proof (R1 a Ha). rewrite put_other by lia. rewrite K6 by (intros [X|[]]; lia). rewrite Cx5. apply KR4; exact Ha. }
  { match goal with |- settles _ _ _ _ _ ?t => destruct t end; [|exact Logic.I]. split; [reflexivity|]. eapply starved_before; [| |eapply (starved_at h4 (hp_next h4 + 1)); [lia|exact Oo5]]; apply G4. }
  cbn [Z.ltb Z.compare]. cbn [app] in AL5. unfold blen in AL5. rewrite Nat2N.id, firstn_all in AL5.
  assert (KR5 : forall a, In a (c :: copy :: R) -> hp_cell h5 a = hp_cell h4 a).
  { intros a Ha. destruct (hold_in _ _ _ a H4 (in_or_app _ _ _ (or_intror Ha))) as (_ & _ & Y & _). apply Cx5; [exact Y|]. intros [X|[]]. subst a. pose proof H4 as (_ & _ & D4 & _). cbn [app] in D4. apply NoDup_cons_iff in D4. exact (proj1 D4 Ha). }
  assert (G5 : gentle base h0 h5).
  { eapply gentle_trans; [exact G4|]. split; [intros a Ha; apply Cx5; [lia|intros [X|[]]; lia]|]. split; [exact O5|lia]. }
  assert (H5' : hold base h5 (copy :: nz c ++ F' ++ R)).
  { unfold nz. rewrite (proj2 (N.eqb_neq c 0)) by lia. eapply hold_perm; [|exact H5]. cbn [app]. symmetry. etransitivity; [apply perm_swap|]. change (c :: copy :: F' ++ R) with ([c; copy] ++ F' ++ R). etransitivity; [apply Permutation_app_swap_app|]. reflexivity. }
  assert (Cc5 : hp_cell h5 copy = Live (Struct [P c; I (Z.of_N (blen d))])) by (rewrite KR5 by (right; left; reflexivity); exact Cc4).
  destruct (free_pin _ _ _ _ _ _ H5' Cc5) as (h6 & h7 & E6 & E7 & G57 & N7 & H7 & K7). rewrite E6. cbn [obind]. rewrite E7. cbn [obind].
  pose proof (gentle_trans _ _ _ _ G5 G57) as G7. pose proof (hold_wf _ _ _ H7) as W7. pose proof (ext_of _ _ W7 G7) as X7.
  assert (K7' : forall a, In a (F' ++ R) -> hp_cell h7 a = hp_cell h5 a) by (intros a Ha; apply K7; apply (hold_in _ _ _ a H7 Ha)).
  assert (AL7 : alist h7 certs [(d, 0%Z)] F') by (eapply alist_frame; [exact AL5|intros a Ha; apply K7'; apply in_or_app; left; exact Ha]).
  rewrite (barray_at_read h7 rtls (Some rt)) by (eapply array_at_kept; [exact W|reflexivity|apply G7|exact Art]). cbn [obind].
  rewrite (listed_read h7 certs (Some [(d, 0%Z)]) F' W7) by (right; eexists; split; [reflexivity|exact AL7]). cbn [obind].
  rewrite (ext_certlist _ _ _ _ W X7 Ald). cbn [obind]. destruct (crypto_verify_cert o rt (Some [(d, 0%Z)]) ld) as [e|]; cbn [obind]; [|exact Logic.I].
  destruct (free_alist_hold _ _ _ _ _ _ H7 AL7) as (h8 & E8 & G78 & W8 & N8 & K8 & H8). rewrite E8. cbn [obind]. pose proof (gentle_trans _ _ _ _ G7 G78) as G8.
  assert (KR8 : forall a, In a R -> hp_cell h8 a = hp_cell h1 a).
  { intros a Ha. rewrite K8. - rewrite K7' by (apply in_or_app; right; exact Ha). rewrite KR5 by (right; right; exact Ha). apply KR4. exact Ha.
    - intros Q. pose proof H7 as (_ & _ & D7 & _). exact (disjoint_of_NoDup _ _ D7 a Q Ha). }
  assert (Fail8 : settles cl want h0 pin (obind (h_free_voucher h8 mv) (fun h => Ok ((-1)%Z, l, h))) (Ok None)) by (apply (Fail h8 []); [exact G8|exact KR8|exact H8|left; reflexivity|left; reflexivity]).
  destruct (e <? 0)%Z; [exact Fail8|]. destruct (pin =? 0) eqn:Ep0; cbn [negb]; [exact Fail8|]. clear Fail8. apply N.eqb_neq in Ep0. destruct Pin as [->|(p0 & n0 & Cp0)]; [contradiction|].
  destruct (Vf h8 KR8) as (Hv8 & Li8 & Am8). assert (Cp8 : hp_cell h8 pin = Live (Struct [P p0; I n0])) by (rewrite (proj1 G8) by exact Pn; exact Cp0).
  assert (Pm : pin <> mv) by (destruct (hold_in _ _ _ _ H8 Mv) as (_ & _ & _ & Y); lia).
  destruct (copy_into base h8 R pin p0 n0 mv 3%nat d H8 Ep0 Cp8 Am8 Pm) as (rc & h9 & E9 & N9 & O9 & K9 & Cs). rewrite E9. cbn [obind].
  assert (KR9 : forall a, In a R -> hp_cell h9 a = hp_cell h1 a) by (intros a Ha; destruct (hold_in _ _ _ _ H8 Ha) as (_ & _ & Y1 & Y2); rewrite K9 by lia; apply KR8; exact Ha).
  destruct (Vf h9 KR9) as (Hv9 & Li9 & _). destruct G8 as (Kg8 & Og8 & Ng8).
  assert (Kl : forall a, a < hp_next h0 -> a <> pin -> hp_cell h9 a = hp_cell h0 a) by (intros a Ha Hne; rewrite K9; [apply Kg8; exact Ha|exact Hne|fold base in Ha; lia]).
  destruct Cs as [(-> & Oo9 & Cc9 & H9)|(-> & Oo9 & Cc9 & Cb9 & H9)]; cbn [Z.ltb Z.compare].
  { assert (Rf : refused h0 h9) by (exists (hp_next h8); rewrite <- Og8; split; [split; [fold base; lia|lia]|exact Oo9]).
    eapply (settles_fail cl want h0 pin h9 l mv f Fv (lk ++ F)); [fold base; lia|congruence|exact Kl|exact Pn|exact Hv9|exact H9|right; exact Rf|right; split; [exact Rf|exact Cc9]|intros _ _; right; exact Rf]. }
  set (b := hp_next h8) in *.
  destruct (free_hold base h9 mv f (b :: lk ++ F)) as (h' & Ef & Gf & Nf & Hf & Kf).
  { apply vstate_vch. exists Fv. split; [exact Hv9|]. eapply hold_perm; [|exact H9]. unfold R. apply Permutation_middle. }
  rewrite Ef. cbn [obind settles]. destruct Gf as (Kgf & Ogf & Ngf). split; [eapply hold_wf; exact Hf|]. split; [fold base; lia|]. split; [congruence|].
  split; [intros a Ha Hne; rewrite Kgf by exact Ha; apply Kl; assumption|]. left. split; [reflexivity|]. exists d, lst, b, F, lk. split; [reflexivity|].
  assert (Kff : forall a, In a (b :: lk ++ F) -> hp_cell h' a = hp_cell h9 a) by (intros a Ha; apply Kf; apply (hold_in _ _ _ a Hf Ha)).
  split; [eapply listed_frame; [exact Li9|intros a Ha; apply Kff; right; apply in_or_app; right; exact Ha]|]. split; [exact Ep0|]. split; [rewrite Kgf by exact Pn; exact Cc9|]. split; [rewrite Kff by (left; reflexivity); exact Cb9|].
  split; [eapply hold_perm; [|exact Hf]; constructor; apply Permutation_app_comm|]. split; [exact HL|exact HF].
Qed.
