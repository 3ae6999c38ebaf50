(** Proofs about the handlers with the memory of request.c: blocks that are
    acquired, kept or lost. *)
From Coq Require Import Permutation ZifyBool ZifyNat ZifyN.
From Verif Require Import Base PBase MOs MBase64 MSerialize MVoucher MCrypto MRequest MHeap MArray MVoucherHeap MConfig MHandlers MSerialHeap MRequestHeap MHandlerHeap
  SBase64 SHeap SArray SConfig SVoucher SRequest SHandlers SSerialHeap SRequestHeap
  PBase64 PHeap PArray PBlocks PConfig PConfigMore PCertFiles POwn PHold PVoucherHeap PAcquire PRequestHeap PRequestHeap4 PRequestHeap6.
Open Scope N_scope.

(** *** New arrays *)
Lemma new_array_comes : forall h d, heap_wf h -> plenty h ->
  exists c h', h_new_array h (Some d) = Ok (c, h') /\ c <> 0 /\ arrived h h' (OArr c) /\ h_barray h' c = Ok (Some (ba_of d)) /\ array_at h' (c, 0%nat) (Some (ba_of d)).
Proof.
  intros h d W PL. destruct (new_array_arrives h d W PL) as (c & h' & E & C0 & A & B). exists c, h'. do 4 (split; [assumption|]). clear A B. revert E. unfold h_new_array.
  destruct (plenty_alloc h (Struct [P 0; I 0]) W PL) as (a & h1 & E1 & A0 & A & Hn1 & Ca & Cx1 & Ex1 & O1). rewrite E1, (proj2 (N.eqb_neq _ _) A0).
  assert (W1 : heap_wf h1) by apply Ex1. destruct (plenty_alloc h1 (Buf d) W1 (ext_plenty _ _ Ex1 PL)) as (b & h2 & E2 & B0 & B & Hn2 & Cb & Cx2 & Ex2 & O2). rewrite E2, (proj2 (N.eqb_neq _ _) B0).
  assert (Ca2 : hp_cell h2 a = Live (Struct [P 0; I 0])) by (rewrite Cx2 by lia; exact Ca).
  erewrite set_field_at; [|exact A0|exact Ca2|reflexivity]. cbn [obind set_nthv]. erewrite set_field_at; [|exact A0|apply put_same|reflexivity]. cbn [obind set_nthv].
  intros E. assert (a = c) as -> by congruence. assert (Eh : h' = put (put h2 c (Live (Struct [P b; I 0]))) c (Live (Struct [P b; I (Z.of_N (blen d))]))) by congruence. subst h'.
  cbn [array_at fst snd ba_of ba_len ba_data]. split; [exact C0|]. exists [P b; I (Z.of_N (blen d))], b. split; [apply put_same|]. split; [reflexivity|]. split; [reflexivity|].
  split; [exact B0|]. split; [rewrite !put_other by lia; exact Cb|lia].
Qed.
Lemma cert_comes : forall rd h path t, heap_wf h -> plenty h -> heap_string h path = Ok t ->
  match rd t with
  | None => h_file_to_x509buf rd h path = Ok (0, h)
  | Some d => exists c h', h_file_to_x509buf rd h path = Ok (c, h') /\ c <> 0 /\ arrived h h' (OArr c) /\ h_barray h' c = Ok (Some (ba_of d)) /\ array_at h' (c, 0%nat) (Some (ba_of d))
  end.
Proof.
  intros rd h path t W PL Hp. unfold h_file_to_x509buf. rewrite Hp. cbn [obind]. destruct (rd t) as [d|]; [|reflexivity]. exact (new_array_comes h d W PL).
Qed.

Lemma ext_array_at : forall h h' b x, heap_wf h -> ext h h' -> array_at h b x -> array_at h' b x.
Proof.
  intros h h' b [x|] W E H; [|exact H]. destruct H as (B0 & fs & p & C & H1 & H2 & H3). split; [exact B0|]. exists fs, p.
  split; [rewrite (ext_live _ _ _ W E) by (eexists; exact C); exact C|]. split; [exact H1|]. split; [exact H2|]. destruct (ba_data x) as [d|]; [|exact H3].
  destruct H3 as (P0 & Cp & L). split; [exact P0|]. split; [|exact L]. rewrite (ext_live _ _ _ W E) by (eexists; exact Cp). exact Cp.
Qed.
Lemma ext_string_at : forall h h' p s, heap_wf h -> ext h h' -> string_at h p s -> string_at h' p s.
Proof.
  intros h h' p [s|] W E H; [|exact H]. destruct H as (P0 & C & d & D & H). split; [exact P0|]. split; [exact C|]. exists d. split; [|exact H]. rewrite (ext_live _ _ _ W E) by (eexists; exact D). exact D.
Qed.

(** *** Blocks that are only counted *)
Definition bufs (l : list N) : list (owned * list N) := map (fun a => (OBuf a, [a])) l.
Lemma oprint_bufs : forall l, oprint (bufs l) = l.
Proof. induction l as [|a l IH]; [reflexivity|]. unfold oprint in *. cbn [bufs map List.concat snd app]. f_equal. exact IH. Qed.
Lemma bufs_owned : forall h l, (forall a, In a l -> a <> 0 /\ is_live h a) -> Forall (fun e => owns h (fst e) (snd e)) (bufs l).
Proof.
  intros h l H. unfold bufs. apply Forall_forall. intros e He. apply in_map_iff in He. destruct He as (a & <- & Ha). cbn [fst snd owns]. right. destruct (H a Ha). auto.
Qed.
Lemma hold_st : forall base h l, hold base h l -> st base h (bufs l).
Proof.
  intros base h l H. pose proof H as (W & B & D & G & V). unfold st. rewrite oprint_bufs. split; [split; [exact W|split; [exact B|exact V]]|]. split; [|auto].
  apply bufs_owned. intros a Ha. destruct (hold_in _ _ _ _ H Ha) as (L & A0 & _). auto.
Qed.
Lemma st_hold : forall base h l, st base h l -> hold base h (oprint l).
Proof. intros base h l ((W & B & V) & _ & D & G). split; [exact W|]. split; [exact B|]. split; [exact D|]. split; [exact G|exact V]. Qed.
Lemma hold_arr : forall base h p b d l, hold base h ((p :: nz b) ++ l) -> arr_new h p b d -> st base h ((OArr p, p :: nz b) :: bufs l).
Proof.
  intros base h p b d l H [C1 C2]. pose proof H as (W & B & D & G & V). unfold st. change (oprint ((OArr p, p :: nz b) :: bufs l)) with ((p :: nz b) ++ oprint (bufs l)). rewrite oprint_bufs.
  split; [split; [exact W|split; [exact B|exact V]]|]. split; [|auto]. constructor.
  - cbn [fst snd owns]. right. exists b, (Z.of_N (blen d)). destruct (hold_in _ _ _ p H (or_introl eq_refl)) as (_ & P0 & _). split; [exact P0|]. split; [exact C1|].
    unfold nz in *. destruct C2 as [[-> ->]|[B0 C2]]; [left; auto|]. rewrite (proj2 (N.eqb_neq _ _) B0) in *. right. split; [exact B0|]. split; [intros ->; congruence|]. split; [exists d; exact C2|reflexivity].
  - apply bufs_owned. intros a Ha. destruct (hold_in _ _ _ a H) as (L & A0 & _); [apply in_or_app; right; exact Ha|]. auto.
Qed.

Lemma cleanup_most : forall base h l rest xs nulls, st base h (l ++ rest) -> Forall is_null nulls -> Permutation xs (nulls ++ map fst l) ->
  exists h', cleanup h xs = Ok h' /\ st base h' rest /\ kept base h h' /\ hp_next h' = hp_next h /\ hp_oom h' = hp_oom h.
Proof.
  intros base h l rest xs nulls S Nl P. pose proof (st_nulls _ _ _ _ S Nl) as S1. rewrite app_assoc in S1.
  assert (E : nulls ++ map fst l = map fst (map (fun x => (x, @nil N)) nulls ++ l)) by (rewrite map_app, map_map; cbn [fst]; rewrite map_id; reflexivity).
  rewrite E in P. destruct (perm_lift _ _ P) as (l' & P' & <-).
  assert (S2 : st base h (l' ++ rest)) by (eapply st_perm; [|exact S1]; apply Permutation_app_tail; apply Permutation_sym; exact P').
  destruct (st_cleanup base l' rest h S2) as (h' & E' & S' & [_ R] & Hn & Ho). exists h'. split; [exact E'|]. split; [exact S'|]. split; [|auto].
  intros a Ha. apply R. intros Q. destruct S2 as (_ & _ & _ & B). assert (In a (oprint (l' ++ rest))) as X by (rewrite oprint_app; apply in_or_app; left; exact Q). apply B in X. lia.
Qed.

(** *** Results of request.c *)
Lemma gotten_local : forall lk h b s h1 r t, heap_wf h -> plenty h -> local h b = (s, h1) -> gotten lk h1 r t ->
  gotten lk h (obind r (fun x => obind (sys_free (snd x) s) (fun h => Ok (fst x, h)))) t.
Proof.
  intros lk h b s h1 r t W PL E G. destruct (hold_local _ _ _ _ _ _ (hold_init h W) E) as (X1 & Es & S0 & Hn1 & Cs & K1 & H1).
  assert (PL1 : plenty h1) by (eapply ext_plenty; eassumption).
  destruct r as [[p h2]|k]; [|destruct G as [_ G]; destruct (plenty_not_starved _ PL1 G)]. destruct G as [X2 G]. cbn [obind fst snd].
  assert (NR : ~ refused h1 h2) by (intros Q; apply (plenty_not_starved _ PL1); eapply refused_starved; exact Q).
  assert (FIN : forall L, hold (hp_next h1) h2 L -> sys_free h2 s = Ok (put h2 s Freed) /\ ext h (put h2 s Freed) /\ hold (hp_next h) (put h2 s Freed) L).
  { intros L HL. pose proof (hold_grow _ _ _ _ _ H1 X2 HL) as H2. assert (H3 : hold (hp_next h) h2 (s :: L)) by (eapply hold_perm; [|exact H2]; apply Permutation_sym, Permutation_cons_append).
    destruct (hold_free _ _ _ _ H3) as [E4 H4]. split; [exact E4|]. split; [|exact H4]. eapply ext_put_held; [exact (ext_trans _ _ _ X1 X2)|exact H3|left; reflexivity]. }
  destruct G as [(-> & HL & Q)|(d & bb & -> & A & HL)].
  - destruct (FIN _ HL) as (E4 & X4 & H4). rewrite E4. cbn [obind]. split; [exact X4|]. left. split; [reflexivity|]. split; [exact H4|]. left. destruct Q; [assumption|contradiction].
  - destruct (FIN _ HL) as (E4 & X4 & H4). rewrite E4. cbn [obind]. split; [exact X4|]. right. exists d, bb. split; [reflexivity|]. split; [|exact H4].
    assert (NS : forall a, In a ((p :: nz bb) ++ lk) -> a <> s) by (intros a Ha ->; destruct (hold_in _ _ _ _ HL Ha) as (_ & _ & _ & Q); lia).
    destruct A as [A1 A2]. split; [rewrite put_other by (apply NS; left; reflexivity); exact A1|]. destruct A2 as [A2|[B0 A2]]; [left; exact A2|right]. split; [exact B0|].
    rewrite put_other; [exact A2|]. apply NS. right. apply in_or_app. left. unfold nz. rewrite (proj2 (N.eqb_neq _ _) B0). left. reflexivity.
Qed.

(** The text of a new array. *)
Lemma encode_new : forall h p b d, heap_wf h -> plenty h -> bytes_ok d -> p <> 0 -> arr_new h p b d ->
  exists h', h_array2base64 h p = Ok ((if blen d <? SIZE_MAX / 4 then Some (rfc_encode d) else None), h') /\ ext h h' /\ st (hp_next h) h' [].
Proof.
  intros h p b d W PL Bd P0 [C1 C2]. destruct C2 as [[-> ->]|[B0 C2]].
  2:{ apply encode_step; try assumption. rewrite (barray_cells h p b d _ P0 B0 C1 C2). unfold ba_of. rewrite N2Z.id. reflexivity. }
  unfold h_array2base64. rewrite (get_ptr_cell _ _ 0%nat _ 0 P0 C1 eq_refl). cbn [obind]. rewrite (get_int_cell _ _ 1%nat _ _ P0 C1 eq_refl). cbn [obind]. unfold load_buf. cbn [N.eqb obind].
  change (Z.of_N (blen [])) with 0%Z. cbn [Z.eqb obind]. rewrite PL. cbn [negb]. rewrite (encode_spec [] Bd). change (blen (@nil N) <? SIZE_MAX / 4) with true. cbv iota. cbn [obind].
  destruct (come_and_go h (rfc_encode [] ++ [0]) W PL) as (c & h1 & E1 & C0 & Ex1 & Cc & h2 & E2 & Ex2 & S2). rewrite E1.
  destruct (Z.ltb_spec (Z.of_N (rfc_len (blen []))) 0) as [Q|_]; [lia|].
  rewrite (heap_string_exact h1 c _ C0 Cc) by (apply in_or_app; right; left; reflexivity). cbn [obind]. rewrite E2. cbn [obind].
  rewrite c_string_app by (apply no_nul, rfc_encode_cstr; exact Bd). exists h2. auto.
Qed.
