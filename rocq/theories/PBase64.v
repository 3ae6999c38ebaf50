(** Proofs about the base64 model. *)
From Coq Require Import ZifyBool ZifyNat ZifyN.
From Verif Require Import Base PBase MBase64 SBase64.
Open Scope N_scope.
Ltac Zify.zify_post_hook ::= Z.div_mod_to_equations.

(** ** Tables *)

Lemma table_char : forall v, v < 64 -> rd base64_table v = Ok (b64_char v).
Proof.
  assert (H : forall v, v < N.of_nat 64 ->
    (match rd base64_table v with Ok c => c =? b64_char v | UB _ => false end)
    = true).
  { apply all_range. vm_compute. reflexivity. }
  intros v Hv. specialize (H v Hv).
  destruct (rd base64_table v); [|discriminate].
  apply N.eqb_eq in H. congruence.
Qed.

Definition dval (c : N) : N :=
  match b64_val c with Some v => v | None => if c =? 61 then 0 else 128 end.

Lemma dtable_val : forall c, c < 256 -> rd (make_dtable base64_table) c = Ok (dval c).
Proof.
  assert (H : forall v, v < N.of_nat 256 ->
    (match rd (make_dtable base64_table) v with
     | Ok c => c =? dval v | UB _ => false end)
    = true).
  { apply all_range. vm_compute. reflexivity. }
  intros v Hv. specialize (H v Hv).
  destruct (rd (make_dtable base64_table) v); [|discriminate].
  apply N.eqb_eq in H. congruence.
Qed.

Lemma b64_val_lt : forall c v, b64_val c = Some v -> v < 64.
Proof.
  intros c v. unfold b64_val.
  destruct ((65 <=? c) && (c <=? 90)) eqn:E1; [intros H; inversion H; lia|].
  destruct ((97 <=? c) && (c <=? 122)) eqn:E2; [intros H; inversion H; lia|].
  destruct ((48 <=? c) && (c <=? 57)) eqn:E3; [intros H; inversion H; lia|].
  destruct (c =? 43) eqn:E4; [intros H; inversion H; lia|].
  destruct (c =? 47) eqn:E5; [intros H; inversion H; lia|]. discriminate.
Qed.

Lemma val0_lt : forall c, val0 c < 64.
Proof.
  intros c. unfold val0. destruct (b64_val c) eqn:E; [|lia].
  eapply b64_val_lt; eassumption.
Qed.

Lemma dval_relevant : forall c, (dval c =? 128) = negb (b64_relevant c).
Proof.
  intros c. unfold dval, b64_relevant.
  destruct (b64_val c) eqn:E.
  - apply b64_val_lt in E. cbn [negb]. apply N.eqb_neq. lia.
  - destruct (c =? 61); reflexivity.
Qed.

Lemma dval_val0 : forall c, b64_relevant c = true -> dval c = val0 c.
Proof.
  intros c. unfold dval, b64_relevant, val0.
  destruct (b64_val c); [reflexivity|]. intros ->. reflexivity.
Qed.

Lemma b64_val_char : forall v, v < 64 -> b64_val (b64_char v) = Some v.
Proof.
  assert (H : forall v, v < N.of_nat 64 ->
    (match b64_val (b64_char v) with Some c => c =? v | None => false end)
    = true).
  { apply all_range. vm_compute. reflexivity. }
  intros v Hv. specialize (H v Hv).
  destruct (b64_val (b64_char v)); [|discriminate].
  apply N.eqb_eq in H. congruence.
Qed.

Lemma b64_char_not_pad : forall v, v < 64 -> (b64_char v =? 61) = false.
Proof.
  assert (H : forall v, v < N.of_nat 64 -> negb (b64_char v =? 61) = true).
  { apply all_range. vm_compute. reflexivity. }
  intros v Hv. specialize (H v Hv). destruct (b64_char v =? 61); auto.
Qed.

(** ** Bit identities *)

Lemma enc_bits_0 : forall a, a < 256 -> N.land (N.shiftr a 2) 63 = a / 4.
Proof.
  intros a Ha.
  enough (H : (N.land (N.shiftr a 2) 63 =? a / 4) = true) by (apply N.eqb_eq; exact H).
  revert a Ha. apply (all_range 256). vm_compute. reflexivity.
Qed.

Lemma enc_bits_1 : forall a b, a < 256 -> b < 256 ->
  N.land (N.lor (N.shiftl (N.land a 3) 4) (N.shiftr b 4)) 63
  = (a mod 4) * 16 + b / 16.
Proof.
  intros a b Ha Hb.
  enough (H : (N.land (N.lor (N.shiftl (N.land a 3) 4) (N.shiftr b 4)) 63
               =? (a mod 4) * 16 + b / 16) = true) by (apply N.eqb_eq; exact H).
  revert a b Ha Hb. apply (all_range2 256 256). vm_compute. reflexivity.
Qed.

Lemma enc_bits_2 : forall b c, b < 256 -> c < 256 ->
  N.land (N.lor (N.shiftl (N.land b 15) 2) (N.shiftr c 6)) 63
  = (b mod 16) * 4 + c / 64.
Proof.
  intros a b Ha Hb.
  enough (H : (N.land (N.lor (N.shiftl (N.land a 15) 2) (N.shiftr b 6)) 63
               =? (a mod 16) * 4 + b / 64) = true) by (apply N.eqb_eq; exact H).
  revert a b Ha Hb. apply (all_range2 256 256). vm_compute. reflexivity.
Qed.

Lemma enc_bits_3 : forall a, a < 256 -> N.land a 63 = a mod 64.
Proof.
  intros a Ha. enough (H : (N.land a 63 =? a mod 64) = true) by (apply N.eqb_eq; exact H).
  revert a Ha. apply (all_range 256). vm_compute. reflexivity.
Qed.

Lemma enc_bits_t1 : forall a, a < 256 ->
  N.land (N.shiftl (N.land a 3) 4) 63 = (a mod 4) * 16.
Proof.
  intros a Ha. enough (H : (N.land (N.shiftl (N.land a 3) 4) 63 =? (a mod 4) * 16) = true)
    by (apply N.eqb_eq; exact H).
  revert a Ha. apply (all_range 256). vm_compute. reflexivity.
Qed.

Lemma enc_bits_t2 : forall a, a < 256 ->
  N.land (N.shiftl (N.land a 15) 2) 63 = (a mod 16) * 4.
Proof.
  intros a Ha. enough (H : (N.land (N.shiftl (N.land a 15) 2) 63 =? (a mod 16) * 4) = true)
    by (apply N.eqb_eq; exact H).
  revert a Ha. apply (all_range 256). vm_compute. reflexivity.
Qed.

Lemma dec_bits_0 : forall a b, a < 64 -> b < 64 ->
  N.lor (N.shiftl a 2) (N.shiftr b 4) mod 256 = a * 4 + b / 16.
Proof.
  intros a b Ha Hb.
  enough (H : (N.lor (N.shiftl a 2) (N.shiftr b 4) mod 256 =? a * 4 + b / 16) = true)
    by (apply N.eqb_eq; exact H).
  revert a b Ha Hb. apply (all_range2 64 64). vm_compute. reflexivity.
Qed.

Lemma dec_bits_1 : forall a b, a < 64 -> b < 64 ->
  N.lor (N.shiftl a 4) (N.shiftr b 2) mod 256 = (a mod 16) * 16 + b / 4.
Proof.
  intros a b Ha Hb.
  enough (H : (N.lor (N.shiftl a 4) (N.shiftr b 2) mod 256 =? (a mod 16) * 16 + b / 4) = true)
    by (apply N.eqb_eq; exact H).
  revert a b Ha Hb. apply (all_range2 64 64). vm_compute. reflexivity.
Qed.

Lemma dec_bits_2 : forall a b, a < 64 -> b < 64 ->
  N.lor (N.shiftl a 6) b mod 256 = (a mod 4) * 64 + b.
Proof.
  intros a b Ha Hb.
  enough (H : (N.lor (N.shiftl a 6) b mod 256 =? (a mod 4) * 64 + b) = true)
    by (apply N.eqb_eq; exact H).
  revert a b Ha Hb. apply (all_range2 64 64). vm_compute. reflexivity.
Qed.

(** ** Encoder *)

Lemma put_ok : forall cap acc b, blen acc < cap -> put cap acc b = Ok (b :: acc).
Proof.
  intros cap acc b H. unfold put.
  destruct (blen acc <? cap) eqn:E; [reflexivity|lia].
Qed.

Lemma put_tab_ok : forall cap acc v, v < 64 -> blen acc < cap ->
  put_tab cap base64_table acc v = Ok (b64_char v :: acc).
Proof.
  intros cap acc v Hv Hc. unfold put_tab. rewrite table_char by exact Hv.
  cbn [obind]. apply put_ok; exact Hc.
Qed.

Lemma triple_ind : forall (P : bytes -> Prop),
  P [] -> (forall a, P [a]) -> (forall a b, P [a; b]) ->
  (forall a b c l, P l -> P (a :: b :: c :: l)) -> forall l, P l.
Proof.
  intros P H0 H1 H2 H3.
  assert (H : forall n l, (List.length l <= n)%nat -> P l).
  { induction n as [|n IH]; intros l Hl.
    - destruct l; [exact H0 | cbn in Hl; lia].
    - destruct l as [|a [|b [|c l]]]; auto. apply H3. apply IH. cbn in Hl. lia. }
  intros l. apply (H (List.length l)). lia.
Qed.

Lemma rfc_encode_len : forall l, blen (rfc_encode l) = rfc_len (blen l).
Proof.
  induction l as [|a|a b|a b c l IH] using triple_ind; try reflexivity.
  cbn [rfc_encode]. rewrite !blen_cons, IH. unfold rfc_len. lia.
Qed.

Lemma encode_loop_rfc : forall src cap acc,
  bytes_ok src -> blen acc + rfc_len (blen src) <= cap ->
  encode_loop cap base64_table true acc src = Ok (rev (rfc_encode src) ++ acc).
Proof.
  induction src as [|a|a b|a b c l IH] using triple_ind; intros cap acc Hok Hcap.
  - reflexivity.
  - inversion Hok as [|? ? Ha _]; subst.
    change (rfc_len (blen [a])) with 4 in Hcap.
    cbn [encode_loop encode_tail].
    rewrite enc_bits_0, enc_bits_t1 by assumption.
    rewrite put_tab_ok by lia. cbn [obind].
    rewrite put_tab_ok by (rewrite ?blen_cons; lia). cbn [obind].
    rewrite put_ok by (rewrite ?blen_cons; lia). cbn [obind].
    rewrite put_ok by (rewrite ?blen_cons; lia).
    cbn [rfc_encode rev app].
    replace (a * 16 / 64) with (a / 4) by lia.
    replace (a * 16 mod 64) with (a mod 4 * 16) by lia.
    reflexivity.
  - inversion Hok as [|? ? Ha Hok']; subst. inversion Hok' as [|? ? Hb _]; subst.
    change (rfc_len (blen [a; b])) with 4 in Hcap.
    cbn [encode_loop encode_tail].
    rewrite enc_bits_0, enc_bits_1, enc_bits_t2 by assumption.
    rewrite put_tab_ok by lia. cbn [obind].
    rewrite put_tab_ok by (rewrite ?blen_cons; lia). cbn [obind].
    rewrite put_tab_ok by (rewrite ?blen_cons; lia). cbn [obind].
    rewrite put_ok by (rewrite ?blen_cons; lia).
    cbn [rfc_encode rev app].
    replace ((a * 256 + b) * 4 / 4096) with (a / 4) by lia.
    replace ((a * 256 + b) * 4 / 64 mod 64) with (a mod 4 * 16 + b / 16) by lia.
    replace ((a * 256 + b) * 4 mod 64) with (b mod 16 * 4) by lia.
    reflexivity.
  - inversion Hok as [|? ? Ha Hok']; subst. inversion Hok' as [|? ? Hb Hok'']; subst.
    inversion Hok'' as [|? ? Hc Hl]; subst.
    assert (Hlen : rfc_len (blen (a :: b :: c :: l)) = 4 + rfc_len (blen l)).
    { rewrite !blen_cons. unfold rfc_len. lia. }
    rewrite Hlen in Hcap.
    cbn [encode_loop].
    rewrite enc_bits_0, enc_bits_1, enc_bits_2, enc_bits_3 by assumption.
    rewrite put_tab_ok by lia. cbn [obind].
    rewrite put_tab_ok by (rewrite ?blen_cons; lia). cbn [obind].
    rewrite put_tab_ok by (rewrite ?blen_cons; lia). cbn [obind].
    rewrite put_tab_ok by (rewrite ?blen_cons; lia). cbn [obind].
    rewrite IH; [|assumption | rewrite !blen_cons; lia].
    cbn [rfc_encode rev].
    replace ((a * 65536 + b * 256 + c) / 262144) with (a / 4) by lia.
    replace ((a * 65536 + b * 256 + c) / 4096 mod 64) with (a mod 4 * 16 + b / 16) by lia.
    replace ((a * 65536 + b * 256 + c) / 64 mod 64) with (b mod 16 * 4 + c / 64) by lia.
    replace ((a * 65536 + b * 256 + c) mod 64) with (c mod 64) by lia.
    rewrite <- !app_assoc. reflexivity.
Qed.

(** The size computation: below the limit it does not wrap and is big enough. *)
Lemma encode_olen_ok : forall n, n < SIZE_MAX / 4 ->
  exists olen, encode_olen n true = Some olen /\ rfc_len n + 1 <= olen.
Proof.
  intros n Hn. unfold encode_olen.
  destruct (SIZE_MAX / 4 <=? n) eqn:E; [lia|].
  assert (Hlim : SIZE_MAX / 4 = 4611686018427387903) by (vm_compute; reflexivity).
  rewrite Hlim in *. unfold szadd, szmul, size_mod in *.
  rewrite (N.mod_small (n * 4)) by lia.
  set (o1 := n * 4 / 3 + 4) in *.
  assert (Ho1 : o1 < 6148914691236517210 + 4) by (unfold o1; lia).
  rewrite (N.mod_small o1) by lia.
  assert (Ho2 : o1 + o1 / 72 < 7000000000000000000) by lia.
  rewrite (N.mod_small (o1 + o1 / 72)) by lia.
  rewrite (N.mod_small (o1 + o1 / 72 + 1)) by lia.
  destruct (o1 + o1 / 72 + 1 <? n) eqn:E2.
  - unfold o1 in E2. lia.
  - eexists. split; [reflexivity|]. unfold rfc_len, o1. lia.
Qed.

Lemma encode_olen_refuse : forall n, SIZE_MAX / 4 <= n -> encode_olen n true = None.
Proof.
  intros n Hn. unfold encode_olen.
  destruct (SIZE_MAX / 4 <=? n) eqn:E; [reflexivity|lia].
Qed.

Lemma encode_spec : forall src, bytes_ok src ->
  serialize_array2base64str true src =
  if blen src <? SIZE_MAX / 4
  then Ok (Z.of_N (rfc_len (blen src)),
           PBuf (rfc_len (blen src) + 1) (rfc_encode src ++ [0]))
  else Ok ((-1)%Z, PNull).
Proof.
  intros src Hok. unfold serialize_array2base64str, base64_gen_encode.
  destruct (blen src <? SIZE_MAX / 4) eqn:E.
  - destruct (encode_olen_ok (blen src)) as [olen [Ho Hcap]]; [lia|].
    rewrite Ho. cbn [negb].
    rewrite encode_loop_rfc; [|assumption | change (blen []) with 0; lia].
    cbn [obind]. rewrite app_nil_r.
    rewrite put_ok by (rewrite blen_rev, rfc_encode_len; lia).
    cbn [obind]. rewrite blen_rev, rfc_encode_len.
    cbn [rev]. rewrite rev_involutive.
    rewrite blen_app, rfc_encode_len. change (blen [0]) with 1.
    unfold to_ssize.
    assert (Hlim : SIZE_MAX / 4 = 4611686018427387903) by (vm_compute; reflexivity).
    rewrite Hlim in E.
    assert (Hb : rfc_len (blen src) < 9223372036854775808) by (unfold rfc_len; lia).
    rewrite N.mod_small by (unfold size_mod; lia).
    destruct (Z.of_N (rfc_len (blen src)) <? 9223372036854775808)%Z eqn:E3; [reflexivity|lia].
  - rewrite encode_olen_refuse by lia. reflexivity.
Qed.

Lemma encode_no_mem : forall src, bytes_ok src ->
  serialize_array2base64str false src = Ok ((-1)%Z, PNull).
Proof.
  intros src Hok. unfold serialize_array2base64str, base64_gen_encode.
  destruct (encode_olen (blen src) true); reflexivity.
Qed.

(** ** Decoder *)

Lemma count_valid_spec : forall src, bytes_ok src ->
  count_valid (make_dtable base64_table) src = Ok (blen (filter b64_relevant src)).
Proof.
  induction src as [|b r IH]; intros Hok; [reflexivity|].
  inversion Hok; subst. cbn [count_valid filter].
  rewrite dtable_val by assumption. cbn [obind].
  rewrite IH by assumption. cbn [obind].
  rewrite dval_relevant.
  destruct (b64_relevant b); cbn [negb]; [|reflexivity].
  rewrite blen_cons. f_equal. lia.
Qed.

Lemma decode_loop_filter : forall src cap acc blk pad, bytes_ok src ->
  decode_loop cap (make_dtable base64_table) acc blk pad src =
  decode_loop cap (make_dtable base64_table) acc blk pad (filter b64_relevant src).
Proof.
  induction src as [|b r IH]; intros cap acc blk pad Hok; [reflexivity|].
  inversion Hok; subst. cbn [filter].
  destruct (b64_relevant b) eqn:Er.
  - cbn [decode_loop]. rewrite dtable_val by assumption. cbn [obind].
    rewrite dval_relevant, Er. cbn [negb].
    destruct blk as [|b0 [|b1 [|b2 [|b3 blk]]]]; try (apply IH; assumption).
    destruct (put cap acc _); [|reflexivity]. cbn [obind].
    destruct (put cap _ _); [|reflexivity]. cbn [obind].
    destruct (put cap _ _); [|reflexivity]. cbn [obind].
    repeat match goal with |- context [if ?c then _ else _] => destruct c end;
      try reflexivity; apply IH; assumption.
  - cbn [decode_loop]. rewrite dtable_val by assumption. cbn [obind].
    rewrite dval_relevant, Er. cbn [negb]. apply IH; assumption.
Qed.

Lemma quad_ind : forall (P : bytes -> Prop),
  P [] -> (forall a, P [a]) -> (forall a b, P [a; b]) -> (forall a b c, P [a; b; c]) ->
  (forall a b c d l, P l -> P (a :: b :: c :: d :: l)) -> forall l, P l.
Proof.
  intros P H0 H1 H2 H3 H4.
  assert (H : forall n l, (List.length l <= n)%nat -> P l).
  { induction n as [|n IH]; intros l Hl.
    - destruct l; [exact H0 | cbn in Hl; lia].
    - destruct l as [|a [|b [|c [|d l]]]]; auto. apply H4. apply IH. cbn in Hl. lia. }
  intros l. apply (H (List.length l)). lia.
Qed.

(** One full block of relevant characters. *)
Lemma decode_block : forall c0 c1 c2 c3 cap acc rest,
  Forall (fun c => c < 256 /\ b64_relevant c = true) [c0; c1; c2; c3] ->
  blen acc + 3 <= cap ->
  decode_loop cap (make_dtable base64_table) acc [] 0 (c0 :: c1 :: c2 :: c3 :: rest) =
  let out := rev (group_bytes c0 c1 c2 c3) ++ acc in
  match pads [c0; c1; c2; c3] with
  | 0%nat => decode_loop cap (make_dtable base64_table) out [] 0 rest
  | 1%nat => Ok (DDone (tl out))
  | 2%nat => Ok (DDone (tl (tl out)))
  | _ => Ok DBadPad
  end.
Proof.
  intros c0 c1 c2 c3 cap acc rest HF Hcap.
  repeat match goal with
         | H : Forall _ (_ :: _) |- _ => inversion H; clear H; subst
         end.
  repeat match goal with H : _ /\ _ |- _ => destruct H end.
  cbn [decode_loop].
  rewrite !dtable_val by assumption. cbn [obind].
  rewrite !dval_relevant.
  repeat match goal with H : b64_relevant _ = true |- _ => rewrite H end.
  cbn [negb app].
  rewrite !dval_val0 by assumption.
  pose proof (val0_lt c0). pose proof (val0_lt c1).
  pose proof (val0_lt c2). pose proof (val0_lt c3).
  rewrite dec_bits_0, dec_bits_1, dec_bits_2 by assumption.
  rewrite put_ok by lia. cbn [obind].
  rewrite put_ok by (rewrite ?blen_cons; lia). cbn [obind].
  rewrite put_ok by (rewrite ?blen_cons; lia). cbn [obind].
  unfold group_bytes.
  set (v := val0 c0 * 262144 + val0 c1 * 4096 + val0 c2 * 64 + val0 c3).
  replace (v / 65536) with (val0 c0 * 4 + val0 c1 / 16) by (unfold v; lia).
  replace (v / 256 mod 256) with (val0 c1 mod 16 * 16 + val0 c2 / 4) by (unfold v; lia).
  replace (v mod 256) with (val0 c2 mod 4 * 64 + val0 c3) by (unfold v; lia).
  cbn [rev app]. unfold pads. cbn [filter].
  destruct (c0 =? 61), (c1 =? 61), (c2 =? 61), (c3 =? 61); reflexivity.
Qed.

Lemma relevant_61 : b64_relevant 61 = true.
Proof. reflexivity. Qed.

Definition rel_ok (l : bytes) : Prop :=
  Forall (fun c => c < 256 /\ b64_relevant c = true) l.

Lemma pads_rep : forall l k, pads (l ++ repeat 61 k) = (k + pads l)%nat.
Proof.
  intros l k. unfold pads. rewrite filter_app, app_length, Nat.add_comm. f_equal.
  induction k; [reflexivity|]. cbn [repeat filter]. rewrite N.eqb_refl.
  cbn [List.length]. congruence.
Qed.

Lemma close_group_dec : forall c0 c1 c2 c3 acc,
  (1 <= pads [c0; c1; c2; c3])%nat ->
  (match pads [c0; c1; c2; c3] with
   | 0%nat => Ok (DDone acc)
   | 1%nat => Ok (DDone (tl (rev (group_bytes c0 c1 c2 c3) ++ acc)))
   | 2%nat => Ok (DDone (tl (tl (rev (group_bytes c0 c1 c2 c3) ++ acc))))
   | _ => Ok DBadPad
   end) =
  match close_group [c0; c1; c2; c3] (group_bytes c0 c1 c2 c3) with
  | Some d => Ok (DDone (rev d ++ acc))
  | None => Ok DBadPad
  end.
Proof.
  intros c0 c1 c2 c3 acc H. unfold close_group, group_bytes.
  destruct (pads [c0; c1; c2; c3]) as [|[|[|n]]]; [lia| | |]; reflexivity.
Qed.

Lemma decode_groups_spec : forall l cap acc,
  rel_ok l -> blen acc + decode_olen (blen l) <= cap ->
  decode_loop cap (make_dtable base64_table) acc [] 0
    (l ++ repeat 61 (N.to_nat (extra_pad (blen l)))) =
  match rfc_decode_groups l with
  | Some d => Ok (DDone (rev d ++ acc))
  | None => Ok DBadPad
  end.
Proof.
  assert (H61 : 61 < 256 /\ b64_relevant 61 = true) by (split; [lia|reflexivity]).
  induction l as [|a|a b|a b c|c0 c1 c2 c3 l IH] using quad_ind; intros cap acc Hok Hcap.
  - reflexivity.
  - inversion Hok; subst.
    change (decode_olen (blen [a])) with 3 in Hcap.
    change (N.to_nat (extra_pad (blen [a]))) with 3%nat. cbn [repeat app].
    rewrite decode_block; [|repeat constructor; try apply H61; tauto|exact Hcap].
    cbv zeta. unfold rfc_decode_groups.
    assert (Hp : pads [a; 61; 61; 61] = (3 + pads [a])%nat) by (apply (pads_rep [a] 3)).
    rewrite Hp. destruct (pads [a]); reflexivity.
  - change (decode_olen (blen [a; b])) with 3 in Hcap.
    change (N.to_nat (extra_pad (blen [a; b]))) with 2%nat. cbn [repeat app].
    rewrite decode_block; [|inversion Hok as [|? ? ? Hr]; inversion Hr; subst;
                            repeat constructor; try apply H61; tauto|exact Hcap].
    cbv zeta. cbn [rfc_decode_groups].
    assert (Hp : pads [a; b; 61; 61] = (2 + pads [a; b])%nat) by (apply (pads_rep [a; b] 2)).
    rewrite <- close_group_dec by lia. rewrite Hp.
    destruct (pads [a; b]); reflexivity.
  - change (decode_olen (blen [a; b; c])) with 3 in Hcap.
    change (N.to_nat (extra_pad (blen [a; b; c]))) with 1%nat. cbn [repeat app].
    rewrite decode_block; [|inversion Hok as [|? ? ? Hr]; inversion Hr as [|? ? ? Hr2]; inversion Hr2; subst;
                            repeat constructor; try apply H61; tauto|exact Hcap].
    cbv zeta. cbn [rfc_decode_groups].
    assert (Hp : pads [a; b; c; 61] = (1 + pads [a; b; c])%nat) by (apply (pads_rep [a; b; c] 1)).
    rewrite <- close_group_dec by lia. rewrite Hp.
    destruct (pads [a; b; c]); reflexivity.
  - assert (Hol : decode_olen (blen (c0 :: c1 :: c2 :: c3 :: l)) = 3 + decode_olen (blen l)).
    { rewrite !blen_cons. unfold decode_olen, extra_pad. lia. }
    assert (Hep : extra_pad (blen (c0 :: c1 :: c2 :: c3 :: l)) = extra_pad (blen l)).
    { rewrite !blen_cons. unfold extra_pad. lia. }
    rewrite Hol in Hcap. rewrite Hep. cbn [app].
    assert (Hl : rel_ok l /\ rel_ok [c0; c1; c2; c3]).
    { unfold rel_ok in *. change (c0 :: c1 :: c2 :: c3 :: l) with ([c0; c1; c2; c3] ++ l) in Hok.
      apply Forall_app in Hok. tauto. }
    destruct Hl as [Hl Hg].
    rewrite decode_block; [|exact Hg|lia]. cbv zeta.
    cbn [rfc_decode_groups].
    destruct (pads [c0; c1; c2; c3] =? 0)%nat eqn:Ep.
    + apply Nat.eqb_eq in Ep. rewrite Ep.
      rewrite IH; [|exact Hl|rewrite blen_app, blen_rev; unfold group_bytes; cbn [blen List.length]; change (blen [_;_;_]) with 3; lia].
      destruct (rfc_decode_groups l); [|reflexivity].
      rewrite rev_app_distr, app_assoc. reflexivity.
    + apply Nat.eqb_neq in Ep.
      rewrite <- close_group_dec by lia.
      destruct (pads [c0; c1; c2; c3]) as [|[|[|n]]]; [lia| | |]; reflexivity.
Qed.

Lemma filter_rel_ok : forall src, bytes_ok src -> rel_ok (filter b64_relevant src).
Proof.
  intros src Hok. unfold rel_ok. apply Forall_forall. intros x Hx.
  apply filter_In in Hx. destruct Hx as [Hx Hr].
  unfold bytes_ok in Hok. rewrite Forall_forall in Hok. auto.
Qed.

(** Full behaviour of the decoder. *)
Lemma decode_spec : forall src, bytes_ok src ->
  serialize_base64str2array true src =
  match rfc_decode src with
  | Some d => Ok (Z.of_N (blen d),
                  PBuf (decode_olen (blen (filter b64_relevant src))) d)
  | None => Ok ((-1)%Z, match filter b64_relevant src with
                        | [] => PNull | _ => PFreed end)
  end.
Proof.
  intros src Hok. unfold serialize_base64str2array, base64_gen_decode.
  rewrite count_valid_spec by assumption. cbn [obind].
  unfold rfc_decode.
  destruct (filter b64_relevant src) as [|x l] eqn:Ef.
  - reflexivity.
  - assert (Hc : (blen (x :: l) =? 0) = false) by (rewrite blen_cons; lia).
    rewrite Hc. cbn [negb].
    rewrite decode_loop_filter.
    2:{ apply bytes_ok_app. split; [assumption|]. unfold bytes_ok. apply Forall_forall.
        intros y Hy. apply repeat_spec in Hy. lia. }
    rewrite filter_app, Ef.
    assert (Hrep : forall k, filter b64_relevant (repeat 61 k) = repeat 61 k).
    { induction k; [reflexivity|]. cbn [repeat filter]. rewrite relevant_61. congruence. }
    rewrite Hrep.
    assert (Hrel : rel_ok (x :: l)) by (rewrite <- Ef; apply filter_rel_ok; assumption).
    rewrite decode_groups_spec; [|exact Hrel|change (blen []) with 0; lia].
    destruct (rfc_decode_groups (x :: l)) as [d|]; [|reflexivity].
    cbn [obind]. rewrite app_nil_r, blen_rev, rev_involutive.
    destruct (Z.of_N (blen d) <? 0)%Z eqn:E; [lia|reflexivity].
Qed.

Lemma decode_no_mem : forall src, bytes_ok src ->
  serialize_base64str2array false src = Ok ((-1)%Z, PNull).
Proof.
  intros src Hok. unfold serialize_base64str2array, base64_gen_decode.
  rewrite count_valid_spec by assumption. cbn [obind].
  destruct (blen (filter b64_relevant src) =? 0); reflexivity.
Qed.

(** ** Consequences *)

Lemma group_bytes_len : forall a b c d, blen (group_bytes a b c d) = 3.
Proof. reflexivity. Qed.

Lemma close_group_len : forall g a b c d x,
  close_group g (group_bytes a b c d) = Some x -> blen x <= 3.
Proof.
  intros g a b c d x. unfold close_group, group_bytes.
  destruct (pads g) as [|[|[|n]]]; intros H; inversion H; subst; cbn; lia.
Qed.

Lemma decode_groups_fit : forall l d,
  rfc_decode_groups l = Some d -> blen d <= decode_olen (blen l).
Proof.
  induction l as [|a|a b|a b c|c0 c1 c2 c3 l IH] using quad_ind; intros d H;
    cbn [rfc_decode_groups] in H.
  - inversion H; subst; cbn; lia.
  - discriminate.
  - apply close_group_len in H. change (decode_olen (blen [a; b])) with 3. exact H.
  - apply close_group_len in H. change (decode_olen (blen [a; b; c])) with 3. exact H.
  - assert (Hol : decode_olen (blen (c0 :: c1 :: c2 :: c3 :: l)) = 3 + decode_olen (blen l)).
    { rewrite !blen_cons. unfold decode_olen, extra_pad. lia. }
    rewrite Hol. destruct (pads _ =? 0)%nat.
    + destruct (rfc_decode_groups l) as [o|]; [|discriminate].
      assert (Hd : d = group_bytes c0 c1 c2 c3 ++ o) by congruence. subst d.
      rewrite blen_app, group_bytes_len. specialize (IH o eq_refl). lia.
    + apply close_group_len in H. lia.
Qed.

Lemma decode_safe : forall mok src, bytes_ok src ->
  exists ret out, serialize_base64str2array mok src = Ok (ret, out) /\
  ((0 <= ret)%Z -> exists cap d, out = PBuf cap d /\ ret = Z.of_N (blen d) /\ blen d <= cap).
Proof.
  intros [|] src Hok.
  - rewrite decode_spec by assumption. unfold rfc_decode.
    destruct (filter b64_relevant src) as [|x l] eqn:Ef.
    + do 2 eexists. split; [reflexivity|]. lia.
    + destruct (rfc_decode_groups (x :: l)) as [d|] eqn:Eg.
      * do 2 eexists. split; [reflexivity|]. intros _. do 2 eexists.
        split; [reflexivity|]. split; [reflexivity|].
        apply decode_groups_fit; exact Eg.
      * do 2 eexists. split; [reflexivity|]. lia.
  - rewrite decode_no_mem by assumption. do 2 eexists. split; [reflexivity|]. lia.
Qed.

Lemma pads_chars : forall l, Forall (fun c => (c =? 61) = false) l -> pads l = 0%nat.
Proof.
  intros l H. unfold pads. induction H; [reflexivity|]. cbn [filter]. rewrite H. exact IHForall.
Qed.

Lemma recombine : forall v,
  v / 262144 * 262144 + v / 4096 mod 64 * 4096 + v / 64 mod 64 * 64 + v mod 64 = v.
Proof. intros v. lia. Qed.

Lemma join3_0 : forall a b c, b < 256 -> c < 256 -> (a * 65536 + b * 256 + c) / 65536 = a.
Proof. intros a b c Hb Hc. lia. Qed.
Lemma join3_1 : forall a b c, b < 256 -> c < 256 ->
  (a * 65536 + b * 256 + c) / 256 mod 256 = b.
Proof. intros a b c Hb Hc. lia. Qed.
Lemma join3_2 : forall a b c, c < 256 -> (a * 65536 + b * 256 + c) mod 256 = c.
Proof. intros a b c Hc. lia. Qed.

Lemma rfc_encode_decode_groups : forall l, bytes_ok l -> rfc_decode_groups (rfc_encode l) = Some l.
Proof.
  induction l as [|a|a b|a b c l IH] using triple_ind; intros Hok.
  - reflexivity.
  - inversion Hok; subst. cbn [rfc_encode rfc_decode_groups].
    assert (a * 16 / 64 < 64) by lia. assert (a * 16 mod 64 < 64) by lia.
    unfold pads. cbn [filter]. rewrite !b64_char_not_pad by assumption.
    rewrite N.eqb_refl. cbn [List.length Nat.eqb].
    unfold close_group, pads. cbn [filter]. rewrite !b64_char_not_pad by assumption.
    rewrite N.eqb_refl. cbn [List.length].
    unfold group_bytes, val0. rewrite !b64_val_char by assumption.
    change (b64_val 61) with (@None N). cbn [firstn]. f_equal. f_equal. lia.
  - inversion Hok as [|? ? Ha Hr]; subst. inversion Hr; subst. cbn [rfc_encode rfc_decode_groups].
    set (v := (a * 256 + b) * 4).
    assert (v / 4096 < 64) by (unfold v; lia).
    assert (v / 64 mod 64 < 64) by lia. assert (v mod 64 < 64) by lia.
    unfold pads. cbn [filter]. rewrite !b64_char_not_pad by assumption.
    rewrite N.eqb_refl. cbn [List.length Nat.eqb].
    unfold close_group, pads. cbn [filter]. rewrite !b64_char_not_pad by assumption.
    rewrite N.eqb_refl. cbn [List.length].
    unfold group_bytes, val0. rewrite !b64_val_char by assumption.
    change (b64_val 61) with (@None N). cbn [firstn]. unfold v.
    repeat f_equal; lia.
  - inversion Hok as [|? ? Ha Hr]; subst. inversion Hr as [|? ? Hb Hr2]; subst.
    inversion Hr2 as [|? ? Hc Hl]; subst. cbn [rfc_encode rfc_decode_groups].
    set (v := a * 65536 + b * 256 + c).
    assert (v / 262144 < 64) by (unfold v; lia).
    assert (v / 4096 mod 64 < 64) by lia.
    assert (v / 64 mod 64 < 64) by lia. assert (v mod 64 < 64) by lia.
    unfold pads. cbn [filter]. rewrite !b64_char_not_pad by assumption.
    cbn [List.length Nat.eqb].
    rewrite IH by assumption.
    unfold group_bytes, val0. rewrite !b64_val_char by assumption.
    cbn [app]. rewrite recombine. unfold v.
    rewrite join3_0, join3_1, join3_2 by assumption. reflexivity.
Qed.

Lemma rfc_encode_relevant : forall l, bytes_ok l -> filter b64_relevant (rfc_encode l) = rfc_encode l.
Proof.
  assert (Hch : forall v, v < 64 -> b64_relevant (b64_char v) = true).
  { intros v Hv. unfold b64_relevant. rewrite b64_val_char by assumption. reflexivity. }
  induction l as [|a|a b|a b c l IH] using triple_ind; intros Hok.
  - reflexivity.
  - inversion Hok; subst. cbn [rfc_encode filter]. rewrite !Hch by lia. rewrite relevant_61. reflexivity.
  - inversion Hok as [|? ? Ha Hr]; subst. inversion Hr; subst. cbn [rfc_encode filter].
    rewrite !Hch by lia. rewrite relevant_61. reflexivity.
  - inversion Hok as [|? ? Ha Hr]; subst. inversion Hr as [|? ? Hb Hr2]; subst.
    inversion Hr2 as [|? ? Hc Hl]; subst. cbn [rfc_encode filter].
    rewrite !Hch by lia. rewrite IH by assumption. reflexivity.
Qed.

Lemma rfc_encode_nonnil : forall l, l <> [] -> rfc_encode l <> [].
Proof.
  intros l H. destruct l as [|a [|b [|c l]]]; [contradiction| | |]; discriminate.
Qed.

Lemma rfc_roundtrip : forall l, bytes_ok l -> l <> [] -> rfc_decode (rfc_encode l) = Some l.
Proof.
  intros l Hok Hne. unfold rfc_decode. rewrite rfc_encode_relevant by assumption.
  destruct (rfc_encode l) eqn:E; [exfalso; apply (rfc_encode_nonnil l Hne); exact E|].
  rewrite <- E. apply rfc_encode_decode_groups; assumption.
Qed.

Lemma b64_char_cstr : forall v, v < 64 -> 0 < b64_char v /\ b64_char v < 128.
Proof.
  assert (H : forall v, v < N.of_nat 64 -> ((0 <? b64_char v) && (b64_char v <? 128)) = true).
  { apply all_range. vm_compute. reflexivity. }
  intros v Hv. specialize (H v Hv). lia.
Qed.

Lemma rfc_encode_cstr : forall l, bytes_ok l -> cstr_ok (rfc_encode l).
Proof.
  assert (Hc : forall v, v < 64 -> 0 < b64_char v /\ b64_char v < 256).
  { intros v Hv. pose proof (b64_char_cstr v Hv). lia. }
  induction l as [|a|a b|a b c l IH] using triple_ind; intros Hok.
  - constructor.
  - inversion Hok; subst. repeat constructor; try (apply Hc; lia); lia.
  - inversion Hok as [|? ? Ha Hr]; subst. inversion Hr; subst. cbn [rfc_encode].
    repeat constructor; try (apply Hc; lia); lia.
  - inversion Hok as [|? ? Ha Hr]; subst. inversion Hr as [|? ? Hb Hr2]; subst.
    inversion Hr2 as [|? ? Hcc Hl]; subst. cbn [rfc_encode].
    unfold cstr_ok in *. repeat (apply Forall_cons; [apply Hc; lia|]). apply IH; assumption.
Qed.

Lemma cstr_ok_bytes_encode : forall l, bytes_ok l -> bytes_ok (rfc_encode l).
Proof. intros l H. apply cstr_bytes, rfc_encode_cstr, H. Qed.

Lemma roundtrip : forall src, bytes_ok src -> src <> [] -> blen src < SIZE_MAX / 4 ->
  exists n cap text,
    serialize_array2base64str true src = Ok (n, PBuf cap (text ++ [0])) /\
    cstr_ok text /\ n = Z.of_N (blen text) /\
    exists cap', serialize_base64str2array true text
                 = Ok (Z.of_N (blen src), PBuf cap' src).
Proof.
  intros src Hok Hne Hlen. rewrite encode_spec by assumption.
  destruct (blen src <? SIZE_MAX / 4) eqn:E; [|lia].
  do 3 eexists. split; [reflexivity|].
  split; [apply rfc_encode_cstr; assumption|].
  split; [rewrite rfc_encode_len; reflexivity|].
  rewrite decode_spec by (apply cstr_ok_bytes_encode; assumption).
  rewrite rfc_roundtrip by assumption. eexists. reflexivity.
Qed.

Lemma decode_ignores : forall mok s1 s2, bytes_ok s1 -> bytes_ok s2 ->
  filter b64_relevant s1 = filter b64_relevant s2 ->
  serialize_base64str2array mok s1 = serialize_base64str2array mok s2.
Proof.
  intros [|] s1 s2 H1 H2 He.
  - rewrite !decode_spec by assumption. unfold rfc_decode. rewrite He. reflexivity.
  - rewrite !decode_no_mem by assumption. reflexivity.
Qed.

Lemma decode_fail_pointer : forall mok src, bytes_ok src ->
  forall ret out, serialize_base64str2array mok src = Ok (ret, out) -> (ret < 0)%Z ->
  ret = (-1)%Z /\
  ((out = PNull /\ (mok = false \/ filter b64_relevant src = [])) \/
   (out = PFreed /\ mok = true /\ filter b64_relevant src <> [] /\
    rfc_decode_groups (filter b64_relevant src) = None)).
Proof.
  intros [|] src Hok ret out.
  - rewrite decode_spec by assumption. unfold rfc_decode.
    destruct (filter b64_relevant src) as [|x l].
    + intros H; inversion H; subst. intros _. split; [reflexivity|]. left. auto.
    + destruct (rfc_decode_groups (x :: l)); intros H Hlt; inversion H; subst.
      * lia.
      * split; [reflexivity|]. right. repeat split; try reflexivity. discriminate.
  - rewrite decode_no_mem by assumption. intros H; inversion H; subst.
    intros _. split; [reflexivity|]. left. auto.
Qed.

Lemma decode_groups_fail : forall l,
  rfc_decode_groups l = None <->
  exists g, first_padded l = Some g /\ (3 <= pads g)%nat.
Proof.
  induction l as [|a|a b|a b c|c0 c1 c2 c3 l IH] using quad_ind;
    cbn [rfc_decode_groups first_padded].
  - split; [discriminate|]. intros [g [H _]]. discriminate.
  - split; [|reflexivity]. intros _. eexists. split; [reflexivity|].
    change (4 - List.length [a])%nat with 3%nat. rewrite pads_rep. lia.
  - change (4 - List.length [a; b])%nat with 2%nat.
    change ([a; b] ++ repeat 61 2) with [a; b; 61; 61].
    assert (Hp : pads [a; b; 61; 61] = (2 + pads [a; b])%nat) by (apply (pads_rep [a; b] 2)).
    unfold close_group. rewrite Hp. split.
    + intros H. exists [a; b; 61; 61]. split; [reflexivity|]. rewrite Hp.
      destruct (pads [a; b]); [discriminate|lia].
    + intros [g [H1 H2]]. inversion H1; subst. rewrite Hp in H2.
      destruct (pads [a; b]); [lia|reflexivity].
  - change (4 - List.length [a; b; c])%nat with 1%nat.
    change ([a; b; c] ++ repeat 61 1) with [a; b; c; 61].
    assert (Hp : pads [a; b; c; 61] = (1 + pads [a; b; c])%nat) by (apply (pads_rep [a; b; c] 1)).
    unfold close_group. rewrite Hp. split.
    + intros H. exists [a; b; c; 61]. split; [reflexivity|]. rewrite Hp.
      destruct (pads [a; b; c]) as [|[|n]]; [discriminate|discriminate|lia].
    + intros [g [H1 H2]]. inversion H1; subst. rewrite Hp in H2.
      destruct (pads [a; b; c]) as [|[|n]]; [lia|lia|reflexivity].
  - destruct (pads [c0; c1; c2; c3] =? 0)%nat eqn:E.
    + rewrite <- IH. destruct (rfc_decode_groups l); split; congruence.
    + apply Nat.eqb_neq in E. unfold close_group. split.
      * intros H. eexists. split; [reflexivity|].
        destruct (pads [c0; c1; c2; c3]) as [|[|[|n]]]; try discriminate; lia.
      * intros [g [H1 H2]]. inversion H1; subst.
        destruct (pads [c0; c1; c2; c3]) as [|[|[|n]]]; try lia; reflexivity.
Qed.

Lemma failed_decode_null_refuted :
  exists src ret out, bytes_ok src /\
    serialize_base64str2array true src = Ok (ret, out) /\ (ret < 0)%Z /\ out = PFreed.
Proof.
  exists (s2b "===="), (-1)%Z, PFreed.
  split; [apply bytes_okb_ok; vm_compute; reflexivity|].
  repeat split; vm_compute; reflexivity.
Qed.

Lemma empty_array_refuted :
  exists src text, bytes_ok src /\
    serialize_array2base64str true src = Ok (Z.of_N (blen text), PBuf (blen text + 1) (text ++ [0])) /\
    serialize_base64str2array true text = Ok ((-1)%Z, PNull).
Proof.
  exists [], []. split; [constructor|]. split; vm_compute; reflexivity.
Qed.
