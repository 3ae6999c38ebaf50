(** Proofs about the helpers of os.c. *)
From Coq Require Import ZifyBool ZifyNat ZifyN.
From Verif Require Import Base PBase MBase64 MSerialize PSerialize MOs.
Open Scope N_scope.

Lemma strlen_cstr : forall s rest, cstr_ok s -> strlen (s ++ 0 :: rest) = Ok (blen s).
Proof.
  induction s as [|c s IH]; intros rest H; cbn [app strlen]; [reflexivity|].
  inversion H as [|? ? Hc Hs]; subst. destruct (c =? 0) eqn:E; [lia|].
  rewrite IH by assumption. cbn [obind]. rewrite blen_cons. f_equal. lia.
Qed.

Lemma memchr0_cstr : forall s rest n i, cstr_ok s ->
  memchr0 (s ++ 0 :: rest) n i =
  Ok (if N.of_nat n <=? blen s then None else Some (i + blen s)).
Proof.
  induction s as [|c s IH]; intros rest n i H; destruct n as [|n]; cbn [app memchr0]; try reflexivity.
  - cbn. f_equal. f_equal. lia.
  - inversion H as [|? ? Hc Hs]; subst. destruct (c =? 0) eqn:E; [lia|].
    rewrite IH by assumption. rewrite blen_cons. f_equal.
    destruct (N.of_nat n <=? blen s) eqn:E1; destruct (N.of_nat (S n) <=? 1 + blen s) eqn:E2; try lia; try reflexivity.
    f_equal. lia.
Qed.

Lemma strnlen_spec : forall s rest m, cstr_ok s ->
  sys_strnlen_s (s ++ 0 :: rest) m = Ok (N.min (blen s) m).
Proof.
  intros s rest m H. unfold sys_strnlen_s. rewrite memchr0_cstr by assumption.
  cbn [obind]. rewrite N2Nat.id. destruct (m <=? blen s) eqn:E; f_equal; lia.
Qed.

Lemma strncpy_cstr : forall s rest n dest, cstr_ok s -> N.of_nat n <= blen dest ->
  strncpy n dest (s ++ 0 :: rest) =
  Ok (firstn n s ++ repeat 0 (n - List.length s) ++ skipn n dest).
Proof.
  induction s as [|c s IH]; intros rest n dest H Hd; destruct n as [|n].
  - reflexivity.
  - destruct dest as [|x d]; [unfold blen in Hd; cbn in Hd; lia|].
    cbn [app strncpy]. cbn [N.eqb]. rewrite blen_cons in Hd.
    destruct (N.of_nat n <=? blen d) eqn:E; [|lia].
    cbn [firstn app List.length skipn Nat.sub repeat]. reflexivity.
  - reflexivity.
  - destruct dest as [|x d]; [unfold blen in Hd; cbn in Hd; lia|].
    inversion H as [|? ? Hc Hs]; subst. rewrite blen_cons in Hd.
    cbn [app strncpy]. destruct (c =? 0) eqn:E; [lia|].
    rewrite IH by (assumption || lia). reflexivity.
Qed.

(** sys_strndup of a C string followed by anything. *)
Lemma strndup_spec : forall s rest n, cstr_ok s -> n < SIZE_MAX ->
  exists block, sys_strndup true (Some (s ++ 0 :: rest)) n = Ok (Some block) /\
    blen block = n + 1 /\ upto_nul block = firstn (N.to_nat n) s.
Proof.
  intros s rest n H Hn. unfold sys_strndup. cbn [negb].
  assert (Hs : szadd n 1 = n + 1).
  { unfold szadd, size_mod. unfold SIZE_MAX in Hn. rewrite N.mod_small; lia. }
  rewrite Hs. rewrite strncpy_cstr; [|assumption|].
  2:{ unfold blen. rewrite repeat_length. lia. }
  cbn [obind]. eexists. split; [reflexivity|]. split.
  - rewrite !blen_app. unfold blen. rewrite firstn_length, repeat_length, skipn_length, repeat_length.
    lia.
  - assert (Hz : exists tl, repeat 0 (N.to_nat n - List.length s) ++ skipn (N.to_nat n) (repeat 0 (N.to_nat (n + 1))) = 0 :: tl).
    { destruct (N.to_nat n - List.length s)%nat; [|eexists; reflexivity].
      assert (Hl : List.length (skipn (N.to_nat n) (repeat 0 (N.to_nat (n + 1)))) = 1%nat)
        by (rewrite skipn_length, repeat_length; lia).
      replace (N.to_nat (n+1)) with (N.to_nat n + 1)%nat in * by lia.
      rewrite repeat_app, skipn_app, repeat_length, Nat.sub_diag in *.
      rewrite skipn_all2 by (rewrite repeat_length; lia). cbn. eauto. }
    destruct Hz as [tl Hz]. rewrite Hz.
    assert (Hf : cstr_ok (firstn (N.to_nat n) s)).
    { unfold cstr_ok in *. rewrite <- (firstn_skipn (N.to_nat n) s) in H. apply Forall_app in H. tauto. }
    revert Hf. generalize (firstn (N.to_nat n) s). intros b; induction b as [|c b IH]; intros Hf; cbn [app upto_nul].
    + reflexivity.
    + inversion Hf; subst. destruct (c =? 0) eqn:E; [lia|]. rewrite IH by assumption. reflexivity.
Qed.

Lemma memdup_spec : forall d rest,
  sys_memdup true (Some (d ++ rest)) (blen d) = Ok (Some d).
Proof.
  intros d rest. unfold sys_memdup, take_mem. cbn [negb].
  rewrite blen_app. destruct (blen d <=? blen d + blen rest) eqn:E; [|lia].
  cbn [obind]. unfold blen. rewrite Nat2N.id, firstn_app, firstn_all, Nat.sub_diag.
  cbn. rewrite app_nil_r. reflexivity.
Qed.

Lemma memdup_null_oom : forall s len, sys_memdup false s len = Ok None /\
  sys_memdup true None len = Ok None.
Proof. intros [s|] len; split; reflexivity. Qed.

Lemma realloc_array_spec : forall nmemb size, nmemb < size_mod -> size < size_mod ->
  (size_mod <= nmemb * size -> sys_realloc_array nmemb size = None) /\
  (nmemb * size < size_mod -> sys_realloc_array nmemb size = Some (nmemb * size)).
Proof.
  intros n s Hn Hs. unfold sys_realloc_array.
  assert (HM : SIZE_MAX = size_mod - 1) by reflexivity.
  destruct (N.eq_dec s 0) as [->|Hz].
  - cbn [N.eqb negb andb]. unfold szmul. rewrite N.mul_0_r. split; intros H.
    + unfold size_mod in H; lia.
    + reflexivity.
  - destruct (s =? 0) eqn:E; [lia|]. cbn [negb andb].
    assert (Hd : (SIZE_MAX / s <? n) = (size_mod <=? n * s)).
    { pose proof (N.div_mod' SIZE_MAX s). pose proof (N.mod_upper_bound SIZE_MAX s Hz).
      apply eq_true_iff_eq. rewrite N.ltb_lt, N.leb_le. rewrite HM in *.
      assert (1 <= size_mod) by (unfold size_mod; lia).
      set (q := (size_mod - 1) / s) in *. set (r := (size_mod - 1) mod s) in *.
      clearbody q r. split; intros Hc.
      - assert (s * (q + 1) <= s * n) by (apply N.mul_le_mono_l; lia). lia.
      - destruct (N.lt_ge_cases q n) as [|Hle]; [assumption|].
        assert (s * n <= s * q) by (apply N.mul_le_mono_l; lia). lia. }
    rewrite Hd. split; intros H.
    + destruct (size_mod <=? n * s) eqn:E2; [reflexivity|lia].
    + destruct (size_mod <=? n * s) eqn:E2; [lia|].
      unfold szmul. rewrite N.mod_small by assumption. reflexivity.
Qed.

Lemma memccpy0_cstr : forall s rest n dest, cstr_ok s -> N.of_nat n <= blen dest ->
  memccpy0 n dest (s ++ 0 :: rest) =
  if N.of_nat n <=? blen s then Ok (firstn n s ++ skipn n dest, false, N.of_nat n)
  else Ok (s ++ 0 :: skipn (S (List.length s)) dest, true, blen s + 1).
Proof.
  induction s as [|c s IH]; intros rest n dest H Hd; destruct n as [|n].
  - reflexivity.
  - destruct dest as [|x d]; [unfold blen in Hd; cbn in Hd; lia|]. reflexivity.
  - cbn [memccpy0 app]. destruct (N.of_nat 0 <=? blen (c :: s)) eqn:E; [reflexivity|lia].
  - destruct dest as [|x d]; [unfold blen in Hd; cbn in Hd; lia|].
    inversion H as [|? ? Hc Hs]; subst. rewrite blen_cons in Hd.
    cbn [app memccpy0]. destruct (c =? 0) eqn:E; [lia|].
    rewrite IH by (assumption || lia). rewrite blen_cons.
    destruct (N.of_nat n <=? blen s) eqn:E1; destruct (N.of_nat (S n) <=? 1 + blen s) eqn:E2; try lia;
      cbn [obind].
    + replace (N.of_nat n + 1) with (N.of_nat (S n)) by lia. reflexivity.
    + replace (blen s + 1 + 1) with (1 + blen s + 1) by lia. reflexivity.
Qed.

Lemma set_nth_app : forall a x b v, set_nth (a ++ x :: b) (List.length a) v = a ++ v :: b.
Proof. induction a as [|y a IH]; intros; cbn; [reflexivity|]. f_equal. apply IH. Qed.

Lemma strlcpy_spec : forall dest s rest siz, cstr_ok s -> 0 < siz -> siz <= blen dest ->
  siz < size_mod ->
  let k := N.to_nat (N.min (blen s) (siz - 1)) in
  sys_strlcpy dest (s ++ 0 :: rest) siz = Ok (firstn k s ++ 0 :: skipn (S k) dest, blen s).
Proof.
  intros dest s rest siz H Hp Hd Hm k. unfold sys_strlcpy.
  rewrite memccpy0_cstr by (assumption || lia). rewrite N2Nat.id.
  destruct (siz <=? blen s) eqn:E; cbn [obind].
  - assert (Hi : (siz + SIZE_MAX) mod size_mod = siz - 1).
    { replace (siz + SIZE_MAX) with ((siz - 1) + 1 * size_mod) by (unfold SIZE_MAX, size_mod; lia).
      rewrite N.mod_add by (unfold size_mod; lia). apply N.mod_small. lia. }
    rewrite Hi. unfold write_at. rewrite blen_app.
    assert (Hl : List.length (firstn (N.to_nat siz) s) = N.to_nat siz).
    { rewrite firstn_length. unfold blen in E. lia. }
    destruct (siz - 1 <? blen (firstn (N.to_nat siz) s) + blen (skipn (N.to_nat siz) dest)) eqn:E2.
    2:{ unfold blen in E2. rewrite Hl in E2. lia. }
    cbn [obind]. rewrite strlen_cstr by assumption. cbn [obind].
    assert (Hk : k = N.to_nat (siz - 1)) by (unfold k; lia).
    rewrite Hk. replace (S (N.to_nat (siz - 1))) with (N.to_nat siz) by lia.
    assert (Hsp : exists x, firstn (N.to_nat siz) s = firstn (N.to_nat (siz - 1)) s ++ [x]).
    { replace (N.to_nat siz) with (S (N.to_nat (siz - 1))) by lia.
      assert (Hlt : (N.to_nat (siz - 1) < List.length s)%nat) by (unfold blen in E; lia).
      clear - Hlt. revert s Hlt. induction (N.to_nat (siz - 1)) as [|n IH]; intros [|c s] Hlt; cbn [List.length] in Hlt; try lia.
      - exists c. reflexivity.
      - destruct (IH s) as [x Hx]; [lia|]. exists x. rewrite !firstn_cons, <- app_comm_cons, <- Hx. reflexivity. }
    destruct Hsp as [x Hx]. rewrite Hx.
    assert (Hl2 : N.to_nat (siz - 1) = List.length (firstn (N.to_nat (siz - 1)) s)).
    { rewrite firstn_length. unfold blen in E. lia. }
    rewrite Hl2 at 2. rewrite <- app_assoc. cbn [app]. rewrite set_nth_app. reflexivity.
  - assert (Hk : k = List.length s) by (unfold k, blen in *; lia).
    rewrite Hk, firstn_all. f_equal. f_equal. lia.
Qed.

Lemma strlcpy_zero_refuted : exists dest src, cstr_ok src /\
  sys_strlcpy dest (src ++ [0]) 0 = UB OOBWrite.
Proof.
  exists (s2b "abc"), (s2b "x"). split; [apply cstr_okb_ok; reflexivity|]. vm_compute. reflexivity.
Qed.
