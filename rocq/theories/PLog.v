(** Proofs about printf_hex, the time stamp, standard input. *)
From Coq Require Import ZifyBool ZifyNat ZifyN.
From Verif Require Import Base PBase MBase64 MSerialize MOs MLog SSerialize SArray SLog PSerialize POs.
Open Scope N_scope.

Lemma set_nth_blen : forall a x b v, set_nth (a ++ x :: b) (N.to_nat (blen a)) v = a ++ v :: b.
Proof. intros a x b v. unfold blen. rewrite Nnat.Nat2N.id. apply set_nth_app. Qed.

(** ** printf_hex *)

Lemma hex_digit_16 : forall up d, d < 16 -> hex_digit up d = digit16 up d.
Proof.
  intros up d H. apply N.eqb_eq. revert d H. destruct up.
  - apply (all_range 16 (fun d => hex_digit true d =? digit16 true d)). vm_compute. reflexivity.
  - apply (all_range 16 (fun d => hex_digit false d =? digit16 false d)). vm_compute. reflexivity.
Qed.
Lemma hex_byte_text : forall up b, b < 256 -> hex_byte up b = hex_text up [b].
Proof. intros up b H. unfold hex_byte, hex_text. cbn [flat_map app]. rewrite !hex_digit_16 by lia. reflexivity. Qed.
Lemma digit16_pos : forall up d, d < 16 -> 0 < digit16 up d < 256.
Proof.
  intros up d H. enough (Q : (0 <? digit16 up d) && (digit16 up d <? 256) = true) by lia. revert d H.
  destruct up; [apply (all_range 16 (fun d => (0 <? digit16 true d) && (digit16 true d <? 256)))|apply (all_range 16 (fun d => (0 <? digit16 false d) && (digit16 false d <? 256)))]; vm_compute; reflexivity.
Qed.
Lemma hex_text_cstr : forall up d, bytes_ok d -> cstr_ok (hex_text up d).
Proof.
  intros up d H. induction H as [|b d Hb Hd IH]; [constructor|]. cbn [hex_text flat_map app]. repeat constructor; try apply digit16_pos; try lia. exact IH.
Qed.
Lemma hex_text_len : forall up d, blen (hex_text up d) = 2 * blen d.
Proof. intros up d. unfold blen. induction d as [|b d IH]; [reflexivity|]. cbn [hex_text flat_map app List.length] in *. fold (hex_text up d). lia. Qed.

Lemma write_all_app : forall l t m, blen l <= blen m -> write_all (t ++ m) (blen t) l = Ok (t ++ l ++ skipn (List.length l) m).
Proof.
  induction l as [|v l IH]; intros t m H; cbn [write_all List.length skipn app]; [reflexivity|].
  destruct m as [|x m]; [unfold blen in H; cbn [List.length] in H; lia|]. unfold write_at. rewrite blen_app, blen_cons in *. rewrite blen_cons in H.
  destruct (blen t <? blen t + (1 + blen m)) eqn:E; [|lia]. cbn [obind]. rewrite set_nth_blen.
  replace (t ++ v :: m) with ((t ++ [v]) ++ m) by (rewrite <- app_assoc; reflexivity). replace (blen t + 1) with (blen (t ++ [v])) by (rewrite blen_app; reflexivity).
  rewrite IH by lia. rewrite <- app_assoc. reflexivity.
Qed.

Lemma snprintf_app : forall t m size text, blen t < size -> size <= blen (t ++ m) ->
  snprintf_at (t ++ m) (blen t) (size - blen t) text = Ok (t ++ firstn (N.to_nat (size - blen t - 1)) text ++ [0] ++ skipn (S (List.length (firstn (N.to_nat (size - blen t - 1)) text))) m, blen text).
Proof.
  intros t m size text H1 H2. unfold snprintf_at. destruct (size - blen t =? 0) eqn:E; [lia|]. rewrite blen_app in H2.
  rewrite write_all_app.
  - cbn [obind]. rewrite app_length. cbn [List.length]. rewrite Nat.add_1_r. rewrite <- app_assoc. reflexivity.
  - rewrite blen_app. unfold blen at 1. rewrite firstn_length. change (blen [0]) with 1. unfold blen. unfold blen in *. lia.
Qed.

Lemma hex_loop_ok : forall n data t m size up, blen t < size -> size <= blen (t ++ m) -> (n <= List.length data)%nat -> bytes_ok (firstn n data) -> (0 < n)%nat ->
  let text := firstn (N.to_nat (size - blen t - 1)) (hex_text up (firstn n data)) in
  hex_loop (t ++ m) (blen t) size data n up = Ok (t ++ text ++ [0] ++ skipn (S (List.length text)) m, blen t + 2 * N.min (N.of_nat n) ((size - blen t - 1) / 2)).
Proof.
  induction n as [|n IH]; intros data t m size up H1 H2 H3 H4 H5; [lia|]. cbv zeta. destruct data as [|b r]; [cbn [List.length] in H3; lia|]. cbn [List.length] in H3.
  cbn [firstn] in H4. inversion H4 as [|? ? Hb Hr]; subst. cbn [hex_loop]. rewrite snprintf_app by assumption. cbn [obind]. rewrite hex_byte_text by exact Hb.
  change (blen (hex_text up [b])) with 2. unfold snprintf_error.
  assert (HT : hex_text up (firstn (S n) (b :: r)) = hex_text up [b] ++ hex_text up (firstn n r)) by reflexivity.
  destruct (size - blen t <=? 2) eqn:E.
  - f_equal. f_equal; [|lia]. rewrite HT. rewrite firstn_app. replace (N.to_nat (size - blen t - 1) - List.length (hex_text up [b]))%nat with 0%nat by (change (List.length (hex_text up [b])) with 2%nat; lia).
    cbn [firstn]. rewrite app_nil_r. reflexivity.
  - assert (F : firstn (N.to_nat (size - blen t - 1)) (hex_text up [b]) = hex_text up [b]) by (apply firstn_all2; change (List.length (hex_text up [b])) with 2%nat; lia).
    rewrite F. change (List.length (hex_text up [b])) with 2%nat. destruct n as [|n].
    + cbn [hex_loop]. rewrite HT. cbn [firstn]. change (hex_text up []) with (@nil N). rewrite app_nil_r, F. change (List.length (hex_text up [b])) with 2%nat. f_equal. f_equal. lia.
    + assert (Lt : blen (t ++ hex_text up [b]) = blen t + 2) by (rewrite blen_app; reflexivity).
      assert (Lm : 3 <= blen m) by (rewrite blen_app in H2; lia).
      replace (t ++ hex_text up [b] ++ [0] ++ skipn 3 m) with ((t ++ hex_text up [b]) ++ (0 :: skipn 3 m)) by (rewrite <- app_assoc; reflexivity).
      rewrite <- Lt. rewrite (IH r (t ++ hex_text up [b]) (0 :: skipn 3 m) size up).
      * rewrite Lt. f_equal. f_equal; [|lia]. rewrite HT. rewrite firstn_app. rewrite F. change (List.length (hex_text up [b])) with 2%nat.
        replace (N.to_nat (size - blen t - 1) - 2)%nat with (N.to_nat (size - (blen t + 2) - 1)) by lia. rewrite <- !app_assoc. f_equal. f_equal. f_equal. f_equal.
        rewrite app_length. change (List.length (hex_text up [b])) with 2%nat. generalize (List.length (firstn (N.to_nat (size - (blen t + 2) - 1)) (hex_text up (firstn (S n) r)))). intros k.
        destruct m as [|x1 [|x2 [|x3 m]]]; try (unfold blen in Lm; cbn [List.length] in Lm; lia). reflexivity.
      * rewrite Lt. lia.
      * rewrite blen_app, Lt, blen_cons. rewrite blen_app in H2. unfold blen in *. rewrite skipn_length. lia.
      * lia.
      * exact Hr.
      * lia.
Qed.

Lemma c_string_prefix : forall s rest, cstr_ok s -> c_string (s ++ 0 :: rest) = s.
Proof. intros s rest H. induction H as [|c s Hc Hs IH]; [reflexivity|]. cbn [app c_string]. destruct (c =? 0) eqn:E; [lia|]. rewrite IH. reflexivity. Qed.
Lemma firstn_cstr : forall n s, cstr_ok s -> cstr_ok (firstn n s).
Proof. intros n s H. revert n. induction H as [|c s Hc Hs IH]; intros [|n]; cbn [firstn]; try constructor; [exact Hc|apply IH]. Qed.
Lemma set_nth_len : forall l i v, List.length (set_nth l i v) = List.length l.
Proof. induction l as [|x l IH]; intros [|i] v; cbn [set_nth List.length]; try reflexivity. f_equal. apply IH. Qed.
Lemma set_nth_skip : forall l i v n, (i < n)%nat -> skipn n (set_nth l i v) = skipn n l.
Proof. induction l as [|x l IH]; intros [|i] v [|n] H; cbn [set_nth skipn]; try reflexivity; try lia. apply IH. lia. Qed.
Lemma set_nth_tail : forall a b i v, (List.length a <= i)%nat -> set_nth (a ++ b) i v = a ++ set_nth b (i - List.length a) v.
Proof. induction a as [|x a IH]; intros b [|i] v H; cbn [app set_nth List.length Nat.sub] in *; try reflexivity; try lia. f_equal. apply IH. lia. Qed.
Lemma set_nth_zero : forall b i, nth i b 0 = 0 -> set_nth b i 0 = b.
Proof. induction b as [|x b IH]; intros [|i] H; cbn [set_nth nth] in *; try reflexivity; [congruence|]. f_equal. apply IH. exact H. Qed.

(** The buffer after the call: the text that fits, a NUL, then what was there, with
    a NUL in the last place; the result. *)
Lemma printf_hex_run : forall mem size data len up, 0 < size -> size <= blen mem -> 0 < len -> len <= blen data -> bytes_ok data ->
  let text := firstn (N.to_nat (size - 1)) (hex_text up (firstn (N.to_nat len) data)) in
  printf_hex (Some mem) size (Some data) len up =
    Ok (Some (text ++ set_nth (0 :: skipn (S (List.length text)) mem) (N.to_nat (size - 1) - List.length text) 0), 2 * N.min len ((size - 1) / 2)).
Proof.
  intros mem size data len up S0 S1 L0 L1 B. cbv zeta. unfold printf_hex. destruct (size =? 0) eqn:E; [lia|].
  pose proof (hex_loop_ok (N.to_nat len) data [] mem size up) as H. cbv zeta in H. change (blen []) with 0 in H. rewrite !N.sub_0_r in H. cbn [app] in H.
  rewrite H; clear H; try lia.
  2:{ unfold blen in L1. lia. }
  2:{ unfold bytes_ok in *. rewrite Forall_forall in *. intros x Hx. apply B. rewrite <- (firstn_skipn (N.to_nat len) data). apply in_or_app. left. exact Hx. }
  set (text := firstn (N.to_nat (size - 1)) (hex_text up (firstn (N.to_nat len) data))). cbn [obind].
  assert (Lt : (List.length text <= N.to_nat (size - 1))%nat) by (unfold text; rewrite firstn_length; lia).
  unfold write_at. replace (size - 1 <? blen (text ++ 0 :: skipn (S (Datatypes.length text)) mem)) with true.
  2:{ symmetry. rewrite blen_app, blen_cons. unfold blen in *. rewrite skipn_length. lia. }
  cbn [obind]. rewrite set_nth_tail by exact Lt. f_equal. f_equal. lia.
Qed.

Lemma skip_skip : forall (l : bytes) a b, skipn b (skipn a l) = skipn (a + b) l.
Proof. intros l a. revert l. induction a as [|a IH]; intros l b; [reflexivity|]. destruct l; cbn [skipn Nat.add]; [apply skipn_nil|apply IH]. Qed.
Lemma set_nth_at : forall l b v, (b < List.length l)%nat -> nth_error (set_nth l b v) b = Some v.
Proof. induction l as [|x l IH]; intros [|b] v H; cbn [set_nth nth_error List.length] in *; try lia; [reflexivity|]. apply IH. lia. Qed.
Lemma hex_spec : forall mem size data len up, 0 < size -> size <= blen mem -> 0 < len -> len <= blen data -> bytes_ok data ->
  exists mem', printf_hex (Some mem) size (Some data) len up = Ok (Some mem', 2 * N.min len ((size - 1) / 2)) /\
    blen mem' = blen mem /\ skipn (N.to_nat size) mem' = skipn (N.to_nat size) mem /\ nth_error mem' (N.to_nat (size - 1)) = Some 0 /\
    c_string mem' = firstn (N.to_nat (size - 1)) (hex_text up (firstn (N.to_nat len) data)).
Proof.
  intros mem size data len up S0 S1 L0 L1 B. pose proof (printf_hex_run mem size data len up S0 S1 L0 L1 B) as R. cbv zeta in R.
  set (text := firstn (N.to_nat (size - 1)) (hex_text up (firstn (N.to_nat len) data))) in *.
  assert (Lt : (List.length text <= N.to_nat (size - 1))%nat) by (unfold text; rewrite firstn_length; lia).
  assert (C : cstr_ok text). { apply firstn_cstr, hex_text_cstr. unfold bytes_ok in *. rewrite Forall_forall in *. intros x Hx. apply B. rewrite <- (firstn_skipn (N.to_nat len) data). apply in_or_app. left. exact Hx. }
  eexists. split; [exact R|].
  assert (Z : exists tl, set_nth (0 :: skipn (S (List.length text)) mem) (N.to_nat (size - 1) - List.length text) 0 = 0 :: tl).
  { destruct (N.to_nat (size - 1) - List.length text)%nat; cbn [set_nth]; eexists; reflexivity. }
  split. { unfold blen in *. rewrite app_length, set_nth_len. cbn [List.length]. rewrite skipn_length. lia. }
  split.
  { rewrite skipn_app. rewrite (skipn_all2 text) by lia. cbn [app]. rewrite set_nth_skip by lia.
    replace (N.to_nat size - List.length text)%nat with (S (N.to_nat (size - 1) - List.length text)) by lia.
    change (skipn (S (N.to_nat (size - 1) - List.length text)) (0 :: skipn (S (List.length text)) mem)) with (skipn (N.to_nat (size - 1) - List.length text) (skipn (S (List.length text)) mem)).
    rewrite skip_skip. f_equal. lia. }
  split.
  { rewrite nth_error_app2 by exact Lt. apply set_nth_at. cbn [List.length]. rewrite skipn_length. unfold blen in *. lia. }
  destruct Z as [tl Z]. rewrite Z. apply c_string_prefix. exact C.
Qed.

(** What the returned number is. *)
Lemma hex_length : forall mem size data len up mem' n, 0 < size -> size <= blen mem -> 0 < len -> len <= blen data -> bytes_ok data ->
  printf_hex (Some mem) size (Some data) len up = Ok (Some mem', n) -> (n = blen (c_string mem') <-> 2 * len < size \/ size mod 2 = 1).
Proof.
  intros mem size data len up mem' n S0 S1 L0 L1 B E. destruct (hex_spec mem size data len up S0 S1 L0 L1 B) as (m & R & _ & _ & _ & C). rewrite E in R. assert (mem' = m) by congruence. assert (Hn : n = 2 * N.min len ((size - 1) / 2)) by congruence. clear R. subst mem'. rewrite C, Hn. clear E Hn.
  unfold blen at 1. rewrite firstn_length. pose proof (hex_text_len up (firstn (N.to_nat len) data)) as HL. unfold blen in HL. rewrite firstn_length in HL. unfold blen in L1.
  assert (HL2 : List.length (hex_text up (firstn (N.to_nat len) data)) = (2 * N.to_nat len)%nat) by lia. rewrite HL2. clear HL HL2.
  destruct (N.le_ge_cases (2 * len) (size - 1)); lia.
Qed.
Lemma hex_empty : forall mem size data up, 0 < size -> size <= blen mem -> printf_hex (Some mem) size (Some data) 0 up = Ok (Some (set_nth mem (N.to_nat (size - 1)) 0), 0).
Proof. intros mem size data up S0 S1. unfold printf_hex. destruct (size =? 0) eqn:E; [lia|]. change (N.to_nat 0) with 0%nat. cbn [hex_loop obind]. unfold write_at. destruct (size - 1 <? blen mem) eqn:E2; [|lia]. reflexivity. Qed.
Lemma hex_null : forall buf size data len up, size = 0 \/ buf = None \/ data = None -> printf_hex buf size data len up = Ok (buf, 0).
Proof. intros buf size data len up H. unfold printf_hex. destruct (size =? 0) eqn:E; [reflexivity|]. destruct buf as [b|], data as [d|]; try reflexivity. destruct H as [H|[H|H]]; [lia|discriminate|discriminate]. Qed.

(** ** Standard input *)

Lemma stdin_ok : forall input t m, blen (t ++ m) = MAX_STDIN_SIZE -> blen input < blen m ->
  stdin_loop (t ++ m) (blen t) input = Ok (t ++ input ++ skipn (List.length input) m, Z.of_N (blen t + blen input)).
Proof.
  induction input as [|c r IH]; intros t m H1 H2; cbn [stdin_loop].
  - cbn [app List.length skipn]. change (blen []) with 0. f_equal. f_equal. lia.
  - destruct m as [|x m]; [change (blen []) with 0 in H2; lia|]. rewrite blen_app, !blen_cons in *. unfold write_at. destruct (blen t <? blen (t ++ x :: m)) eqn:E; [|rewrite blen_app, blen_cons in E; lia]. cbn [obind].
    rewrite set_nth_blen. destruct (MAX_STDIN_SIZE <? blen t + 1) eqn:E2; [lia|].
    replace (t ++ c :: m) with ((t ++ [c]) ++ m) by (rewrite <- app_assoc; reflexivity). replace (blen t + 1) with (blen (t ++ [c])) by (rewrite blen_app; reflexivity).
    rewrite IH; [|rewrite !blen_app; change (blen [c]) with 1; lia|lia]. rewrite <- app_assoc. cbn [app List.length skipn]. rewrite blen_app. change (blen [c]) with 1. do 2 f_equal. lia.
Qed.
Lemma stdin_full : forall input t m, blen (t ++ m) = MAX_STDIN_SIZE -> blen m < blen input -> stdin_loop (t ++ m) (blen t) input = UB OOBWrite.
Proof.
  induction input as [|c r IH]; intros t m H1 H2; [change (blen []) with 0 in H2; lia|]. cbn [stdin_loop]. unfold write_at. destruct m as [|x m].
  - rewrite app_nil_r in *. destruct (blen t <? blen t) eqn:E; [lia|reflexivity].
  - rewrite blen_app, blen_cons in H1. rewrite !blen_cons in H2. destruct (blen t <? blen (t ++ x :: m)) eqn:E; [|rewrite blen_app, blen_cons in E; lia]. cbn [obind].
    rewrite set_nth_blen. destruct (MAX_STDIN_SIZE <? blen t + 1) eqn:E2; [lia|].
    replace (t ++ c :: m) with ((t ++ [c]) ++ m) by (rewrite <- app_assoc; reflexivity). replace (blen t + 1) with (blen (t ++ [c])) by (rewrite blen_app; reflexivity).
    apply IH; [rewrite !blen_app; change (blen [c]) with 1; lia|lia].
Qed.
Lemma stdin_edge : forall input t m, blen (t ++ m) = MAX_STDIN_SIZE -> blen input = blen m ->
  stdin_loop (t ++ m) (blen t) input = Ok (t ++ input, Z.of_N MAX_STDIN_SIZE).
Proof.
  induction input as [|c r IH]; intros t m H1 H2; cbn [stdin_loop].
  - destruct m as [|x m]; [|rewrite blen_cons in H2; change (blen []) with 0 in H2; lia]. rewrite app_nil_r in *. rewrite H1. reflexivity.
  - destruct m as [|x m]; [rewrite blen_cons in H2; change (blen []) with 0 in H2; lia|]. rewrite blen_app, !blen_cons in *. unfold write_at. destruct (blen t <? blen (t ++ x :: m)) eqn:E; [|rewrite blen_app, blen_cons in E; lia]. cbn [obind].
    rewrite set_nth_blen. destruct (MAX_STDIN_SIZE <? blen t + 1) eqn:E2; [lia|].
    replace (t ++ c :: m) with ((t ++ [c]) ++ m) by (rewrite <- app_assoc; reflexivity). replace (blen t + 1) with (blen (t ++ [c])) by (rewrite blen_app; reflexivity).
    rewrite IH; [|rewrite !blen_app; change (blen [c]) with 1; lia|lia]. rewrite <- app_assoc. reflexivity.
Qed.

Lemma main_reads_ok : forall junk input, blen junk = 4096 -> blen input < 4096 ->
  exists buf, main_reads junk input = Ok (Some (buf, blen input)) /\ blen buf = 4096 /\ firstn (List.length input) buf = input /\ nth_error buf (List.length input) = Some 0.
Proof.
  intros junk input J I. unfold main_reads, read_stdin. pose proof (stdin_ok input [] junk J ltac:(lia)) as Q. cbn [app] in Q. change (blen []) with 0 in Q. rewrite Q. cbn [obind].
  destruct (Z.of_N (0 + blen input) <? 0)%Z eqn:E; [lia|]. rewrite N2Z.id. change (0 + blen input) with (blen input).
  assert (L : blen (input ++ skipn (List.length input) junk) = 4096) by (rewrite blen_app; unfold blen in *; rewrite skipn_length; lia).
  unfold write_at. destruct (blen input <? blen (input ++ skipn (List.length input) junk)) eqn:E2; [|lia]. cbn [obind].
  destruct (skipn (List.length input) junk) as [|x r] eqn:S; [rewrite app_nil_r in L; lia|].
  rewrite set_nth_blen. eexists. split; [reflexivity|]. split; [rewrite blen_app, blen_cons in *; exact L|].
  split; [rewrite firstn_app, Nat.sub_diag, firstn_all; apply app_nil_r|]. rewrite nth_error_app2, Nat.sub_diag by lia. reflexivity.
Qed.
Lemma main_reads_over : forall junk input, blen junk = 4096 -> 4096 <= blen input -> main_reads junk input = UB OOBWrite.
Proof.
  intros junk input J I. unfold main_reads, read_stdin. destruct (N.eq_dec (blen input) 4096) as [H|H].
  - pose proof (stdin_edge input [] junk J ltac:(lia)) as Q. cbn [app] in Q. change (blen []) with 0 in Q. rewrite Q. cbn [obind]. change (Z.of_N MAX_STDIN_SIZE <? 0)%Z with false. cbv iota.
    unfold write_at. change (Z.to_N (Z.of_N MAX_STDIN_SIZE)) with 4096. destruct (4096 <? blen input) eqn:E; [lia|]. reflexivity.
  - pose proof (stdin_full input [] junk J ltac:(lia)) as Q. cbn [app] in Q. change (blen []) with 0 in Q. rewrite Q. reflexivity.
Qed.
