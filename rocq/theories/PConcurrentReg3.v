(** The registrar's handlers keep to what they hold. *)
From Coq Require Import Permutation.
From Verif Require Import Base PBase MOs MBase64 MSerialize MVoucher MCrypto MRequest MHeap MArray MVoucherHeap MConfig MHandlers MConcurrent MConcurrentReg SBase64 SHeap SArray SConfig SVoucher SRequest SHandlers
  PBase64 PHeap PArray PBlocks PConfig PConfigMore PCertFiles POwn PAcquire PAcquire2 PRequest PRequest2 PRequest3 PRequest4 PRequest5 PRequest6 PRequest7 PMasa PRegistrar PConcurrent PConcurrentReg.
Open Scope N_scope.

Section Steps.
Variables (h0 : heap) (good : Z -> bytes -> Prop) (bad : Prop).
Hypotheses (W0 : heap_wf h0) (PL0 : plenty h0).
Let base := hp_next h0.
Notation fine := (fine h0 good bad).

Lemma fine_act n f l : (forall h, ext h0 h -> heap_wf h -> plenty h -> base <= hp_next h -> own base h l -> bad /\ (exists k, f h = UB k) \/ exists h' p' l', f h = Ok (h', p') /\ moved base h l h' l' /\ fine n p' l') -> fine (S n) (act f) l.
Proof.
  intros H. unfold act. cbn [PConcurrentReg.fine]. intros h ld E O. destruct (H h E (proj1 E) (ext_plenty _ _ E PL0) (proj1 (proj2 E)) O) as [[B [k U]]|(h' & p' & l' & Q & M & G)].
  - left. split; [exact B|]. exists k. rewrite U. reflexivity.
  - right. exists h', p', l'. rewrite Q. cbn [obind]. auto.
Qed.
Lemma fine_still n p l : fine n p l -> fine (S n) (act (fun h => Ok (h, p))) l.
Proof. intros G. apply fine_act. intros h E W PL Bn O. right. exists h, p, l. split; [reflexivity|]. split; [apply moved_still; assumption|exact G]. Qed.

Lemma fine_cert n l rd path t kfail (k : N -> prog) : heap_string h0 path = Ok t -> (rd t = None -> fine n kfail l) ->
  (forall d p F, rd t = Some d -> p <> 0 -> fine n (k p) ((IArr p (Some (ba_of d)), F) :: l)) ->
  fine (S n) (act (fun h => obind (h_file_to_x509buf rd h path) (fun x => let (c, h) := x in if c =? 0 then Ok (h, kfail) else Ok (h, k c)))) l.
Proof.
  intros Hp K0 K1. apply fine_act. intros h E W PL Bn O. right. pose proof (cert_arrives rd h path t W PL (ext_string _ _ _ _ W0 E Hp)) as A. destruct (rd t) as [d|].
  - destruct A as (c & h' & Q & C0 & A & B). rewrite Q. cbn [obind]. rewrite (proj2 (N.eqb_neq _ _) C0). destruct (moved_arrived base h l h' (IArr c (Some (ba_of d))) W Bn O A) as [F M]; [intros F Ow; split; assumption|].
    do 3 eexists. split; [reflexivity|]. split; [exact M|]. apply K1; [reflexivity|exact C0].
  - rewrite A. cbn [obind N.eqb]. do 3 eexists. split; [reflexivity|]. split; [apply moved_still; assumption|]. apply K0. reflexivity.
Qed.
Lemma fine_list n l rd path ts kfail (k : N -> prog) : path_list h0 path ts -> (missing rd ts -> fine n kfail l) ->
  (forall xs p F, cert_list rd ts xs -> ~ missing rd ts -> fine n (k p) ((IList p xs, F) :: l)) ->
  fine (S n) (act (fun h => obind (load_cert_files rd h path) (fun x => let '(z, p, h) := x in if (z <? 0)%Z then Ok (h, kfail) else Ok (h, k p)))) l.
Proof.
  intros Hp K0 K1. apply fine_act. intros h E W PL Bn O. right. destruct (list_arrives rd h path ts W PL (ext_path_list _ _ _ _ W0 E Hp)) as [(p & h' & xs & Q & A & B & CL & NM)|(p & h' & Q & _ & X & S & _ & Mi)]; rewrite Q; cbn [obind].
  - change ((0 <? 0)%Z) with false. cbv iota. destruct (moved_arrived base h l h' (IList p xs) W Bn O A) as [F M]; [intros F Ow; split; assumption|].
    do 3 eexists. split; [reflexivity|]. split; [exact M|]. apply K1; assumption.
  - change ((-1 <? 0)%Z) with true. cbv iota. do 3 eexists. split; [reflexivity|]. split; [apply moved_ext; assumption|]. apply K0. exact Mi.
Qed.
Lemma fine_issuer n l v kfail (k : N -> prog) : (cv_issuer_text v = None -> fine n kfail l) ->
  (forall t p F, cv_issuer_text v = Some t -> p <> 0 -> fine n (k p) ((IArr p (Some (issuer_ba t)), F) :: l)) ->
  fine (S n) (act (fun h => obind (crypto_getcert_issuer h (Some v)) (fun x => let (c, h) := x in if c =? 0 then Ok (h, kfail) else Ok (h, k c)))) l.
Proof.
  intros K0 K1. apply fine_act. intros h E W PL Bn O. right. destruct (cv_issuer_text v) as [t|] eqn:Et.
  - destruct (issuer_arrives h v t W PL Et) as (c & h' & Q & C0 & A & B). rewrite Q. cbn [obind]. rewrite (proj2 (N.eqb_neq _ _) C0). destruct (moved_arrived base h l h' (IArr c (Some (issuer_ba t))) W Bn O A) as [F M]; [intros F Ow; split; assumption|].
    do 3 eexists. split; [reflexivity|]. split; [exact M|]. apply K1; [reflexivity|exact C0].
  - unfold crypto_getcert_issuer. rewrite Et. cbn [obind N.eqb]. do 3 eexists. split; [reflexivity|]. split; [apply moved_still; assumption|]. apply K0. reflexivity.
Qed.
Lemma fine_raw n l k0 (k : N -> prog) : (forall p, p <> 0 -> fine n (k p) ((IRaw p, [p]) :: l)) ->
  fine (S n) (act (fun h => let (p, h) := alloc h (Struct [P 0; I 0]) in if p =? 0 then UB k0 else Ok (h, k p))) l.
Proof.
  intros K. apply fine_act. intros h E W PL Bn O. right. destruct (plenty_alloc h (Struct [P 0; I 0]) W PL) as (p & h1 & E1 & P0 & Pn & Hn1 & Cp & Cx1 & Ex1 & O1). rewrite E1, (proj2 (N.eqb_neq _ _) P0).
  do 3 eexists. split; [reflexivity|]. split; [|apply K; exact P0]. apply moved_new; try assumption.
  - intros a Ha La. left. symmetry. destruct O1 as (_ & _ & O1). apply (O1 a Ha). exact La.
  - constructor; [intros []|constructor].
  - intros a [<-|[]]. lia.
  - split; [exact P0|]. split; [reflexivity|exact Cp].
Qed.

(** The decoder fills the array in. *)
Definition decoded (src : bytes) (p : N) (rc : Z) (arr : N) (x : item) : Prop :=
  match rfc_decode src with
  | Some d => rc = Z.of_N (blen d) /\ x = IDec p arr d
  | None => rc = (-1)%Z /\ match filter b64_relevant src with [] => x = IArr p (Some (mk_ba None 0)) | _ => x = IHole p arr end
  end.
Lemma fine_decode n l p src (k : Z -> N -> prog) : bytes_ok src -> (forall rc arr x F, decoded src p rc arr x -> ow x = OArr p -> fine n (k rc arr) ((x, F) :: l)) ->
  fine (S n) (act (fun h => obind (h_base64str2array h src) (fun r => let '(rc, arr, h) := r in obind (set_field h p 0 (P arr)) (fun h => obind (set_field h p 1 (I rc)) (fun h => Ok (h, k rc arr)))))) ((IRaw p, [p]) :: l).
Proof.
  intros Bs K. apply fine_act. intros h E W PL Bn O. right. pose proof O as (Oh & ND & Bl). inversion Oh as [|? ? O1 O2]; subst. destruct O1 as (P0 & _ & Cp). cbn [fst snd] in *. rewrite iprint_cons in ND, Bl.
  assert (Hpn : base <= p < hp_next h) by (apply Bl; left; reflexivity). assert (Np : ~ In p (iprint l)) by (inversion ND; subst; assumption).
  assert (STORE : forall h2 rc arr, heap_wf h2 -> hp_cell h2 p = Live (Struct [P 0; I 0]) ->
    exists h3 h4, set_field h2 p 0 (P arr) = Ok h3 /\ set_field h3 p 1 (I rc) = Ok h4 /\ hp_cell h4 p = Live (Struct [P arr; I rc]) /\
      heap_wf h4 /\ hp_next h4 = hp_next h2 /\ hp_oom h4 = hp_oom h2 /\ (forall x, x <> p -> hp_cell h4 x = hp_cell h2 x)).
  { intros h2 rc arr W2 C2. erewrite set_field_at; [|exact P0|exact C2|reflexivity]. cbn [set_nthv]. do 2 eexists. split; [reflexivity|].
    erewrite set_field_at; [|exact P0|apply put_same|reflexivity]. cbn [set_nthv]. split; [reflexivity|]. split; [apply put_same|].
    assert (W3 : heap_wf (MHeap.put h2 p (Live (Struct [P arr; I 0])))) by (eapply wf_write; [exact W2|exact P0|exact C2|auto]).
    split; [eapply wf_write; [exact W3|exact P0|apply put_same|auto]|]. repeat (split; [reflexivity|]). intros x Hx; rewrite !put_other by exact Hx; reflexivity. }
  assert (FIN : forall h4 x F, heap_wf h4 -> hp_next h <= hp_next h4 -> hp_oom h4 = hp_oom h -> (forall a, a <> p -> a < hp_next h -> hp_cell h4 a = hp_cell h a) -> holds h4 x F -> NoDup F ->
    In p F -> (forall a, In a F -> a = p \/ hp_next h <= a < hp_next h4) -> (forall a, hp_next h <= a -> is_live h4 a -> In a F) -> moved base h ((IRaw p, [p]) :: l) h4 ((x, F) :: l)).
  { intros h4 x F W4 N4 O4 X4 Hx NF Hpf HF LF. split; [exact W4|]. split; [exact N4|]. split; [exact O4|]. rewrite !iprint_cons. cbn [app].
    assert (KL : forall a, In a (iprint l) -> hp_cell h4 a = hp_cell h a). { intros a Ha. apply X4; [intros ->; contradiction|apply Bl; right; exact Ha]. }
    split; [intros a Ha Hn; apply X4; [intros ->; apply Hn; left; reflexivity|exact Ha]|]. split; [|split].
    - split; [constructor; [exact Hx|]|].
      + rewrite Forall_forall in *. intros e He. eapply holds_frame; [exact W|exact W4|apply O2; exact He|]. intros a Ha. apply KL. eapply iprint_in; eassumption.
      + rewrite iprint_cons. split.
        * apply disjoint_app; [exact NF|inversion ND; subst; assumption|]. intros a Ha Q. destruct (HF a Ha) as [->|Q1]; [contradiction|]. assert (base <= a < hp_next h) by (apply Bl; right; exact Q). lia.
        * intros a Ha. apply in_app_or in Ha. destruct Ha as [Ha|Ha]; [destruct (HF a Ha) as [->|Q1]; lia|]. assert (base <= a < hp_next h) by (apply Bl; right; exact Ha). lia.
    - intros a Ha. apply in_app_or in Ha. destruct Ha as [Ha|Ha]; [destruct (HF a Ha) as [->|Q1]; [left; left; reflexivity|right; lia]|left; right; exact Ha].
    - intros a La [[<-|Ha]|Ha]; apply in_or_app; [left; exact Hpf|right; exact Ha|left; apply LF; assumption]. }
  unfold decoded in K. pose proof (decode_cells h src W PL Bs) as D. destruct (rfc_decode src) as [d|]; [|destruct (filter b64_relevant src) as [|x0 r0]].
  - destruct D as (arr & h2 & E2 & An & A0 & N2 & O2' & W2 & Ca & X2). rewrite E2. cbn [obind].
    assert (C2 : hp_cell h2 p = Live (Struct [P 0; I 0])) by (rewrite X2 by lia; exact Cp).
    destruct (STORE h2 (Z.of_N (blen d)) arr W2 C2) as (h3 & h4 & E3 & E4 & C4 & W4 & N4 & O4 & X4). rewrite E3. cbn [obind]. rewrite E4. cbn [obind].
    do 3 eexists. split; [reflexivity|]. split; [|apply K; [split; reflexivity|reflexivity]].
    apply (FIN h4 _ [p; arr]); try assumption; try lia; try congruence.
    + intros a Ha Hl. rewrite X4 by exact Ha. apply X2. lia.
    + repeat (split; [assumption || reflexivity || lia|]). rewrite X4 by lia. exact Ca.
    + constructor; [intros [Q|[]]; lia|]. constructor; [intros []|constructor].
    + left. reflexivity.
    + intros a [<-|[<-|[]]]; [left; reflexivity|right; lia].
    + intros a Ha [b Hb]. destruct (N.eq_dec a arr) as [->|Ne]; [right; left; reflexivity|]. rewrite X4 in Hb by lia. rewrite X2 in Hb by exact Ne. destruct W as (_ & _ & W). rewrite W in Hb by exact Ha. discriminate.
  - rewrite D. cbn [obind]. destruct (STORE h (-1)%Z 0 W Cp) as (h3 & h4 & E3 & E4 & C4 & W4 & N4 & O4 & X4). rewrite E3. cbn [obind]. rewrite E4. cbn [obind].
    do 3 eexists. split; [reflexivity|]. split; [|apply K; [split; reflexivity|reflexivity]].
    apply (FIN h4 _ [p]); try assumption; try lia; try congruence.
    + intros a Ha Hl. apply X4. exact Ha.
    + split; [right; exists 0, (-1)%Z; auto|]. unfold h_barray. rewrite (proj2 (N.eqb_neq _ _) P0), (get_ptr_cell _ _ 0%nat _ 0 P0 C4 eq_refl). cbn [obind]. rewrite (get_int_cell _ _ 1%nat _ _ P0 C4 eq_refl). reflexivity.
    + constructor; [intros []|constructor].
    + left. reflexivity.
    + intros a [<-|[]]. left. reflexivity.
    + intros a Ha [b Hb]. rewrite X4 in Hb by lia. destruct W as (_ & _ & W). rewrite W in Hb by exact Ha. discriminate.
  - destruct D as (arr & h2 & E2 & An & A0 & N2 & O2' & W2 & Ca & X2). rewrite E2. cbn [obind].
    assert (C2 : hp_cell h2 p = Live (Struct [P 0; I 0])) by (rewrite X2 by lia; exact Cp).
    destruct (STORE h2 (-1)%Z arr W2 C2) as (h3 & h4 & E3 & E4 & C4 & W4 & N4 & O4 & X4). rewrite E3. cbn [obind]. rewrite E4. cbn [obind].
    do 3 eexists. split; [reflexivity|]. split; [|apply K; [split; reflexivity|reflexivity]].
    apply (FIN h4 _ [p; arr]); try assumption; try lia; try congruence.
    + intros a Ha Hl. rewrite X4 by exact Ha. apply X2. lia.
    + repeat (split; [assumption || reflexivity || lia|]). rewrite X4 by lia. exact Ca.
    + constructor; [intros [Q|[]]; lia|]. constructor; [intros []|constructor].
    + left. reflexivity.
    + intros a [<-|[<-|[]]]; [left; reflexivity|right; lia].
    + intros a Ha [b Hb]. destruct (N.eq_dec a arr) as [->|Ne]; [rewrite X4 in Hb by lia; congruence|]. rewrite X4 in Hb by lia. rewrite X2 in Hb by exact Ne. destruct W as (_ & _ & W). rewrite W in Hb by exact Ha. discriminate.
Qed.
End Steps.
