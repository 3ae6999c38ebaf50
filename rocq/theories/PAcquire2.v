(** More acquisition steps: decoding into a new array. *)
From Coq Require Import Permutation.
From Verif Require Import Base PBase MOs MBase64 MSerialize MVoucher MCrypto MRequest MHeap MArray MVoucherHeap MConfig MHandlers SBase64 SHeap SArray SConfig SRequest SHandlers PBase64 PHeap PArray PBlocks PConfig PConfigMore PCertFiles POwn PAcquire.
Open Scope N_scope.

(** A clean-up that meets an array whose buffer has been released. *)
Lemma cleanup_hold : forall base h l l1 l2 xs nulls p b n ys, st base h l -> Permutation l (l1 ++ (OBuf p, [p]) :: l2) -> Forall is_null nulls -> Permutation xs (nulls ++ map fst l1) ->
  p <> 0 -> b <> 0 -> hp_cell h p = Live (Struct [P b; I n]) -> hp_cell h b = Freed -> exists k, cleanup h (xs ++ OArr p :: ys) = UB k.
Proof.
  intros base h l l1 l2 xs nulls p b n ys S Pl Nl Pm P0 B0 Cp Cb. pose proof (st_perm _ _ _ _ Pl S) as S0. pose proof (st_nulls _ _ _ _ S0 Nl) as S1. rewrite app_assoc in S1.
  assert (E : nulls ++ map fst l1 = map fst (map (fun x => (x, @nil N)) nulls ++ l1)) by (rewrite map_app, map_map; cbn [fst]; rewrite map_id; reflexivity).
  rewrite E in Pm. destruct (perm_lift _ _ Pm) as (l' & P' & <-).
  assert (S2 : st base h (l' ++ (OBuf p, [p]) :: l2)). { eapply st_perm; [|exact S1]. apply Permutation_app_tail. apply Permutation_sym. exact P'. }
  destruct (st_cleanup base l' _ h S2) as (h' & E' & S' & R & Hn & Ho). rewrite cleanup_app, E'. cbn [obind cleanup free_owned].
  assert (Np : ~ In p (oprint l')).
  { destruct S2 as (_ & _ & ND & _). rewrite oprint_app in ND. intros Q. apply (disjoint_of_NoDup _ _ ND p Q). change (oprint ((OBuf p, [p]) :: l2)) with (p :: oprint l2). left. reflexivity. }
  assert (Nb : ~ In b (oprint l')) by (intros Q; apply R in Q; destruct Q as [[y Q] _]; congruence).
  destruct R as [_ R]. unfold h_free_binary_array. rewrite (proj2 (N.eqb_neq _ _) P0). rewrite (get_ptr_cell h' p 0%nat [P b; I n] b P0) by (try reflexivity; rewrite R by exact Np; exact Cp). cbn [obind].
  rewrite (proj2 (N.eqb_neq _ _) B0). unfold sys_free at 1. rewrite (proj2 (N.eqb_neq _ _) B0), R, Cb by exact Nb. eexists. reflexivity.
Qed.

Lemma arr_one : forall h h' p n, heap_wf h -> heap_wf h' -> hp_next h <= hp_next h' -> hp_oom h' = hp_oom h -> p <> 0 -> hp_next h <= p ->
  hp_cell h' p = Live (Struct [P 0; I n]) -> (forall x, x <> p -> hp_cell h' x = hp_cell h x) -> arrived h h' (OArr p).
Proof.
  intros h h' p n W W' Hn Ho P0 Hp Cp Cx. split.
  - split; [exact W'|]. split; [exact Hn|]. split; [|exact Ho]. intros x Hx. apply Cx. lia.
  - exists [p]. apply st_one.
    + split; [exact W'|]. split; [exact Hn|]. intros x Hx. cbn [In]. split.
      * intros [y Hy]. destruct (N.eq_dec p x) as [->|Q]; [left; reflexivity|]. rewrite Cx in Hy by congruence. destruct W as (_ & _ & W3). rewrite W3 in Hy by exact Hx. discriminate.
      * intros [<-|[]]. eexists. exact Cp.
    + right. exists 0, n. split; [exact P0|]. split; [exact Cp|]. left. auto.
    + constructor; [intros []|constructor].
    + intros x [<-|[]]. exact Hp.
Qed.
Lemma buf_one : forall h h' p y b, heap_wf h -> heap_wf h' -> hp_next h <= hp_next h' -> hp_oom h' = hp_oom h -> p <> 0 -> hp_next h <= p -> hp_next h <= b ->
  hp_cell h' p = Live y -> hp_cell h' b = Freed -> (forall x, x <> p -> x <> b -> hp_cell h' x = hp_cell h x) -> ext h h' /\ st (hp_next h) h' [(OBuf p, [p])].
Proof.
  intros h h' p y b W W' Hn Ho P0 Hp Hb Cp Cb Cx. split.
  - split; [exact W'|]. split; [exact Hn|]. split; [|exact Ho]. intros x Hx. apply Cx; lia.
  - apply st_one.
    + split; [exact W'|]. split; [exact Hn|]. intros x Hx. cbn [In]. split.
      * intros [z Hz]. destruct (N.eq_dec p x) as [->|Q]; [left; reflexivity|]. destruct (N.eq_dec b x) as [->|Q2]; [congruence|]. rewrite Cx in Hz by congruence. destruct W as (_ & _ & W3). rewrite W3 in Hz by exact Hx. discriminate.
      * intros [<-|[]]. eexists. exact Cp.
    + right. split; [exact P0|]. split; [eexists; exact Cp|reflexivity].
    + constructor; [intros []|constructor].
    + intros x [<-|[]]. exact Hp.
Qed.

Lemma decode_cells : forall h src, heap_wf h -> plenty h -> bytes_ok src ->
  match rfc_decode src with
  | Some d => exists p h', h_base64str2array h src = Ok (Z.of_N (blen d), p, h') /\ p = hp_next h /\ p <> 0 /\ hp_next h' = hp_next h + 1 /\ hp_oom h' = hp_oom h /\ heap_wf h' /\ hp_cell h' p = Live (Buf d) /\ (forall x, x <> p -> hp_cell h' x = hp_cell h x)
  | None =>
    match filter b64_relevant src with
    | [] => h_base64str2array h src = Ok ((-1)%Z, 0, h)
    | _ => exists p h', h_base64str2array h src = Ok ((-1)%Z, p, h') /\ p = hp_next h /\ p <> 0 /\ hp_next h' = hp_next h + 1 /\ hp_oom h' = hp_oom h /\ heap_wf h' /\ hp_cell h' p = Freed /\ (forall x, x <> p -> hp_cell h' x = hp_cell h x)
    end
  end.
Proof.
  intros h src W PL B. unfold h_base64str2array. rewrite PL. cbn [negb]. rewrite (decode_spec src B). destruct (rfc_decode src) as [d|].
  - cbn [obind]. destruct (plenty_alloc h (Buf d) W PL) as (a & h' & E & A0 & A & Hn & Ca & Cx & Ex & O). rewrite E. exists a, h'. pose proof Ex as (W' & _ & _ & Ho). auto 10.
  - destruct (filter b64_relevant src) as [|x r]; cbn [obind]; [reflexivity|].
    destruct (plenty_alloc h (Buf []) W PL) as (a & h' & E & A0 & A & Hn & Ca & Cx & Ex & O). rewrite E.
    assert (La : is_live h' a) by (eexists; exact Ca). destruct (free_live h' a (proj1 Ex) La) as [E2 W2]. rewrite E2. cbn [obind]. exists a, (MHeap.put h' a Freed). pose proof Ex as (W' & _ & _ & Ho).
    split; [reflexivity|]. split; [exact A|]. split; [exact A0|]. split; [exact Hn|]. split; [exact Ho|]. split; [exact W2|]. split; [apply put_same|]. intros y Hy. rewrite put_other by exact Hy. apply Cx. exact Hy.
Qed.

(** Decoding into a new array: [h3] once the pointer and [h4] once the length is
    stored. *)
Definition decoded_into (h : heap) (src : bytes) (p : N) (rc : Z) (arr : N) (h3 h4 : heap) : Prop :=
  match rfc_decode src with
  | Some d => rc = Z.of_N (blen d) /\ arr <> 0 /\ arrived h h4 (OArr p) /\ load_buf h4 arr = Ok (Some d) /\ h_barray h4 p = Ok (Some (ba_of d))
  | None => rc = (-1)%Z /\
    match filter b64_relevant src with
    | [] => arr = 0 /\ arrived h h3 (OArr p) /\ arrived h h4 (OArr p)
    | _ => arr <> 0 /\ ext h h3 /\ ext h h4 /\ st (hp_next h) h3 [(OBuf p, [p])] /\ st (hp_next h) h4 [(OBuf p, [p])] /\
           hp_cell h3 p = Live (Struct [P arr; I 0]) /\ hp_cell h4 p = Live (Struct [P arr; I (-1)]) /\ hp_cell h3 arr = Freed /\ hp_cell h4 arr = Freed
    end
  end.
Lemma decode_into : forall h src, heap_wf h -> plenty h -> bytes_ok src ->
  exists p h1 rc arr h2 h3 h4, alloc h (Struct [P 0; I 0]) = (p, h1) /\ p <> 0 /\ ext h h1 /\ h_base64str2array h1 src = Ok (rc, arr, h2) /\
    set_field h2 p 0 (P arr) = Ok h3 /\ set_field h3 p 1 (I rc) = Ok h4 /\ decoded_into h src p rc arr h3 h4.
Proof.
  intros h src W PL B. destruct (plenty_alloc h (Struct [P 0; I 0]) W PL) as (p & h1 & E1 & P0 & Pn & Hn1 & Cp & Cx1 & Ex1 & O1).
  assert (W1 : heap_wf h1) by apply Ex1. pose proof (ext_plenty _ _ Ex1 PL) as PL1. destruct Ex1 as (W1' & Hn & K1 & Ho1).
  assert (STORE : forall h2 rc arr, heap_wf h2 -> hp_cell h2 p = Live (Struct [P 0; I 0]) ->
    exists h3 h4, set_field h2 p 0 (P arr) = Ok h3 /\ set_field h3 p 1 (I rc) = Ok h4 /\ hp_cell h3 p = Live (Struct [P arr; I 0]) /\ hp_cell h4 p = Live (Struct [P arr; I rc]) /\
      heap_wf h3 /\ heap_wf h4 /\ hp_next h3 = hp_next h2 /\ hp_next h4 = hp_next h2 /\ hp_oom h3 = hp_oom h2 /\ hp_oom h4 = hp_oom h2 /\
      (forall x, x <> p -> hp_cell h3 x = hp_cell h2 x) /\ (forall x, x <> p -> hp_cell h4 x = hp_cell h2 x)).
  { intros h2 rc arr W2 C2. erewrite set_field_at; [|exact P0|exact C2|reflexivity]. cbn [set_nthv]. do 2 eexists. split; [reflexivity|].
    erewrite set_field_at; [|exact P0|apply put_same|reflexivity]. cbn [set_nthv]. split; [reflexivity|]. split; [apply put_same|]. split; [apply put_same|].
    assert (W3 : heap_wf (MHeap.put h2 p (Live (Struct [P arr; I 0])))) by (eapply wf_write; [exact W2|exact P0|exact C2|auto]).
    split; [exact W3|]. split; [eapply wf_write; [exact W3|exact P0|apply put_same|auto]|]. repeat (split; [reflexivity|]). split; intros x Hx; rewrite !put_other by exact Hx; reflexivity. }
  assert (X1 : ext h h1) by (split; [exact W1|split; [exact Hn|split; [exact K1|exact Ho1]]]).
  pose proof (decode_cells h1 src W1 PL1 B) as D. unfold decoded_into. destruct (rfc_decode src) as [d|]; [|destruct (filter b64_relevant src) as [|x0 r0]].
  - destruct D as (arr & h2 & E2 & An & A0 & N2 & O2 & W2 & Ca & X2).
    assert (C2 : hp_cell h2 p = Live (Struct [P 0; I 0])) by (rewrite X2 by lia; exact Cp).
    destruct (STORE h2 (Z.of_N (blen d)) arr W2 C2) as (h3 & h4 & E3 & E4 & C3 & C4 & W3 & W4 & N3 & N4 & O3 & O4 & X3 & X4).
    exists p, h1, (Z.of_N (blen d)), arr, h2, h3, h4. split; [exact E1|]. split; [exact P0|]. split; [exact X1|]. split; [exact E2|]. split; [exact E3|]. split; [exact E4|]. split; [reflexivity|]. split; [exact A0|].
    assert (Ca4 : hp_cell h4 arr = Live (Buf d)) by (rewrite X4 by lia; exact Ca).
    split; [|split].
    + apply (struct_arrives h p arr (Z.of_N (blen d)) d h4); try assumption; try lia; [congruence|]. intros x Hx1 Hx2. rewrite X4, X2 by assumption. apply Cx1. exact Hx1.
    + unfold load_buf. rewrite (proj2 (N.eqb_neq _ _) A0), Ca4. reflexivity.
    + rewrite (barray_cells h4 p arr d _ P0 A0 C4 Ca4). unfold ba_of. rewrite N2Z.id. reflexivity.
  - destruct (STORE h1 (-1)%Z 0 W1 Cp) as (h3 & h4 & E3 & E4 & C3 & C4 & W3 & W4 & N3 & N4 & O3 & O4 & X3 & X4).
    exists p, h1, (-1)%Z, 0, h1, h3, h4. split; [exact E1|]. split; [exact P0|]. split; [exact X1|]. split; [exact D|]. split; [exact E3|]. split; [exact E4|]. split; [reflexivity|]. split; [reflexivity|].
    split; [apply (arr_one h h3 p 0%Z)|apply (arr_one h h4 p (-1)%Z)]; try assumption; try lia; try congruence; intros x Hx; [rewrite X3 by exact Hx|rewrite X4 by exact Hx]; apply Cx1; exact Hx.
  - destruct D as (arr & h2 & E2 & An & A0 & N2 & O2 & W2 & Ca & X2).
    assert (C2 : hp_cell h2 p = Live (Struct [P 0; I 0])) by (rewrite X2 by lia; exact Cp).
    destruct (STORE h2 (-1)%Z arr W2 C2) as (h3 & h4 & E3 & E4 & C3 & C4 & W3 & W4 & N3 & N4 & O3 & O4 & X3 & X4).
    exists p, h1, (-1)%Z, arr, h2, h3, h4. split; [exact E1|]. split; [exact P0|]. split; [exact X1|]. split; [exact E2|]. split; [exact E3|]. split; [exact E4|]. split; [reflexivity|]. split; [exact A0|].
    assert (Ca3 : hp_cell h3 arr = Freed) by (rewrite X3 by lia; exact Ca). assert (Ca4 : hp_cell h4 arr = Freed) by (rewrite X4 by lia; exact Ca).
    destruct (buf_one h h3 p (Struct [P arr; I 0]) arr) as [Q1 Q2]; try assumption; try lia; try congruence. { intros x Hx1 Hx2. rewrite X3, X2 by assumption. apply Cx1. exact Hx1. }
    destruct (buf_one h h4 p (Struct [P arr; I (-1)]) arr) as [Q3 Q4]; try assumption; try lia; try congruence. { intros x Hx1 Hx2. rewrite X4, X2 by assumption. apply Cx1. exact Hx1. }
    repeat (split; [assumption|]). assumption.
Qed.
