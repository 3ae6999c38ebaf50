(** Proofs: the tokenizer on texts that begin like a document. *)
From Coq Require Import ZifyBool ZifyNat ZifyN.
From Verif Require Import Base PBase MSerialize SSerialize MJsmn PJsmn SVoucher SJson SJsonMore PJsonTok.
Open Scope N_scope.

(** ** What the rest of a text cannot change *)

(** Tokens keep type and start, closed ones their end; sizes only grow. *)
Definition stays (t t' : token) : Prop :=
  tk_type t' = tk_type t /\ tk_start t' = tk_start t /\ (is_open t = false -> tk_end t' = tk_end t /\ is_open t' = false) /\ (tk_size t <= tk_size t')%Z.
Definition grown (l l' : list token) : Prop :=
  forall i t, nth_error l i = Some t -> exists t', nth_error l' i = Some t' /\ stays t t'.

Lemma stays_refl : forall t, stays t t.
Proof. intros t. split; [reflexivity|]. split; [reflexivity|]. split; [auto|lia]. Qed.
Lemma stays_trans : forall a b c, stays a b -> stays b c -> stays a c.
Proof.
  intros a b c (A1 & A2 & A3 & A4) (B1 & B2 & B3 & B4). split; [congruence|]. split; [congruence|]. split; [|lia].
  intros H. destruct (A3 H) as [E O]. destruct (B3 O) as [E' O']. split; [congruence|exact O'].
Qed.
Lemma grown_refl : forall l, grown l l.
Proof. intros l i t H. exists t. split; [exact H|apply stays_refl]. Qed.
Lemma grown_trans : forall a b c, grown a b -> grown b c -> grown a c.
Proof. intros a b c H1 H2 i t Hi. destruct (H1 i t Hi) as (t' & Hi' & S1). destruct (H2 i t' Hi') as (t2 & Hi2 & S2). exists t2. split; [exact Hi2|eapply stays_trans; eassumption]. Qed.

Lemma nth_upd_same : forall f l i t, nth_error l i = Some t -> nth_error (upd_nth l i f) i = Some (f t).
Proof. induction l as [|u l IH]; intros [|i] t H; cbn in *; try discriminate; [congruence|apply IH; exact H]. Qed.
Lemma nth_upd_other : forall f l i j, i <> j -> nth_error (upd_nth l j f) i = nth_error l i.
Proof. induction l as [|u l IH]; intros [|i] [|j] H; cbn; try reflexivity; [congruence|apply IH; congruence]. Qed.
Lemma grown_upd : forall f l j, (forall t, nth_error l j = Some t -> stays t (f t)) -> grown l (upd_nth l j f).
Proof.
  intros f l j Hf i t Hi. destruct (Nat.eq_dec i j) as [->|Hne].
  - exists (f t). split; [apply nth_upd_same; exact Hi|apply Hf; exact Hi].
  - exists t. rewrite nth_upd_other by exact Hne. split; [exact Hi|apply stays_refl].
Qed.
Lemma grown_app : forall l r, grown l (l ++ r).
Proof. intros l r i t H. exists t. split; [|apply stays_refl]. rewrite nth_error_app1; [exact H|]. apply nth_error_Some. congruence. Qed.
Lemma stays_incr : forall t, stays t (incr_size t).
Proof. intros t. unfold incr_size. split; [reflexivity|]. split; [reflexivity|]. cbn [tk_end tk_size]. split; [|lia]. intros H. split; [reflexivity|exact H]. Qed.
Lemma grown_incr : forall st, grown (js_toks st) (js_toks (incr_super st)).
Proof. intros st. unfold incr_super. destruct (js_super st) as [j|]; [|apply grown_refl]. cbn [js_toks]. apply grown_upd. intros t _. apply stays_incr. Qed.

(** A closed token that is not the super token and not the last one. *)
Definition sealed (st : jstate) (i : nat) (t : token) : Prop :=
  nth_error (js_toks st) i = Some t /\ is_open t = false /\ js_super st <> Some i /\ (S i < List.length (js_toks st))%nat.

Lemma sealed_add : forall st i t x, sealed st i t -> sealed (incr_super (mk_js (js_toks st ++ [x]) (js_super st))) i t.
Proof.
  intros st i t x (H1 & H2 & H3 & H4). unfold incr_super. cbn [js_super js_toks].
  assert (Hn : nth_error (js_toks st ++ [x]) i = Some t) by (rewrite nth_error_app1 by lia; exact H1).
  destruct (js_super st) as [j|] eqn:E; unfold sealed; cbn [js_toks js_super].
  - rewrite nth_upd_other by congruence. rewrite upd_nth_length, app_length. cbn [List.length]. repeat split; auto; try congruence. lia.
  - rewrite app_length. cbn [List.length]. repeat split; auto; try congruence. lia.
Qed.

Lemma find_open : forall l j, find_last is_open l 0 = Some j -> exists t, nth_error l j = Some t /\ is_open t = true.
Proof. intros l j H. apply find_last_spec in H. destruct H as (H & t & H1 & H2). exists t. rewrite Nat.sub_0_r in H1. auto. Qed.

Definition step_ok (st st' : jstate) : Prop :=
  grown (js_toks st) (js_toks st') /\ forall i t, sealed st i t -> sealed st' i t.

Lemma leaf_stays : forall num st ty s e st', leaf_step num st ty s e = inl st' -> step_ok st st'.
Proof.
  intros num st ty s e st' H. unfold leaf_step, alloc_token in H. destruct (List.length (js_toks st) <? num)%nat; [|discriminate].
  injection H as <-. split.
  - eapply grown_trans; [|apply grown_incr]. cbn [js_toks]. apply grown_app.
  - intros i t Hs. apply sealed_add. exact Hs.
Qed.

Lemma open_stays : forall num st ty pos st', open_step num st ty pos = inl st' -> step_ok st st'.
Proof.
  intros num st ty pos st' H. unfold open_step, alloc_token in H. destruct (List.length (js_toks st) <? num)%nat; [|discriminate].
  injection H as <-. split.
  - cbn [js_toks]. eapply grown_trans; [|apply grown_incr]. cbn [js_toks]. apply grown_app.
  - intros i t Hs. pose proof (sealed_add st i t (mk_tok ty (Z.of_N pos) (-1) 0) Hs) as (H1 & H2 & H3 & H4). split; [exact H1|]. split; [exact H2|]. cbn [js_toks js_super]. split; [|exact H4].
    intros Q. injection Q as Q. lia.
Qed.

Lemma close_stays : forall st ty pos st', close_step st ty pos = inl st' -> step_ok st st'.
Proof.
  intros st ty pos st' H. unfold close_step in H. destruct (find_last is_open (js_toks st) 0) as [j|] eqn:E; [|discriminate].
  destruct (find_open _ _ E) as (u & U1 & U2). rewrite U1 in H. destruct (negb (type_eqb (tk_type u) ty)); [discriminate|]. injection H as <-. split.
  - cbn [js_toks]. apply grown_upd. intros t Ht. assert (t = u) as -> by congruence. split; [reflexivity|]. split; [reflexivity|]. cbn [tk_size]. split; [congruence|lia].
  - intros i t (H1 & H2 & H3 & H4). assert (Hij : i <> j) by congruence. split; [cbn [js_toks]; rewrite nth_upd_other by exact Hij; exact H1|]. split; [exact H2|]. cbn [js_toks js_super]. rewrite upd_nth_length. split; [|exact H4].
    intros Q. apply find_open in Q. destruct Q as (x & X1 & X2).
    assert (Hi : (i < j)%nat). { assert (L : (i < List.length (firstn j (upd_nth (js_toks st) j (fun t => mk_tok (tk_type t) (tk_start t) (Z.of_N pos + 1) (tk_size t)))))%nat) by (apply nth_error_Some; congruence). rewrite firstn_length in L. lia. }
    assert (F : forall A (l : list A) k i, (i < k)%nat -> nth_error (firstn k l) i = nth_error l i).
    { clear. intros A l. induction l as [|y l IH]; intros [|k] [|i] Hk; cbn; try reflexivity; try lia. apply IH. lia. }
    rewrite F in X1 by exact Hi. rewrite nth_upd_other in X1 by exact Hij. congruence.
Qed.

Lemma colon_stays : forall st, step_ok st (colon_step st).
Proof.
  intros st. split; [apply grown_refl|]. intros i t (H1 & H2 & H3 & H4). split; [exact H1|]. split; [exact H2|]. split; [|exact H4].
  unfold colon_step. cbn [js_super]. destruct (js_toks st) as [|a l] eqn:E; [discriminate|]. intros Q. injection Q as Q. cbn [List.length] in *. lia.
Qed.

Lemma comma_stays : forall st, step_ok st (comma_step st).
Proof.
  intros st. unfold comma_step. assert (R : step_ok st st) by (split; [apply grown_refl|auto]).
  destruct (js_super st) as [i|]; [|exact R]. destruct (nth_error (js_toks st) i) as [u|]; [|exact R]. destruct (is_container u); [exact R|].
  destruct (find_last (fun t => is_container t && is_open t) (js_toks st) 0) as [j|] eqn:E; [|exact R].
  split; [apply grown_refl|]. intros k t (H1 & H2 & H3 & H4). split; [exact H1|]. split; [exact H2|]. split; [|exact H4]. cbn [js_super]. intros Q. injection Q as ->.
  apply find_last_spec in E. destruct E as (_ & x & X1 & X2). rewrite Nat.sub_0_r in X1. cbn [js_toks] in H1. assert (x = t) as -> by congruence. rewrite H2, andb_false_r in X2. discriminate.
Qed.

Lemma step_trans : forall a b c, step_ok a b -> step_ok b c -> step_ok a c.
Proof. intros a b c [A1 A2] [B1 B2]. split; [eapply grown_trans; eassumption|auto]. Qed.

Lemma loop_stays : forall num l pos skip st toks, jsmn_loop num l pos skip st = inl toks ->
  exists sup, step_ok st (mk_js toks sup).
Proof.
  intros num. induction l as [|c r IH]; intros pos skip st toks H; cbn [jsmn_loop] in H.
  - exists (js_super st). unfold finish in H. destruct (find_last is_open (js_toks st) 0); [discriminate|]. injection H as <-. destruct st. split; [apply grown_refl|auto].
  - destruct skip as [|k]; [|eapply IH; exact H].
    assert (G : forall st1 k, step_ok st st1 -> jsmn_loop num r (pos + 1) k st1 = inl toks -> exists sup, step_ok st (mk_js toks sup)).
    { intros st1 k S1 H1. destruct (IH _ _ _ _ H1) as [sup S2]. exists sup. eapply step_trans; eassumption. }
    destruct (c =? 0). { exists (js_super st). unfold finish in H. destruct (find_last is_open (js_toks st) 0); [discriminate|]. injection H as <-. destruct st. split; [apply grown_refl|auto]. }
    destruct (c =? 123). { destruct (open_step num st TObject pos) as [st1|] eqn:E; [|discriminate]. eapply G; [eapply open_stays; exact E|exact H]. }
    destruct (c =? 91). { destruct (open_step num st TArray pos) as [st1|] eqn:E; [|discriminate]. eapply G; [eapply open_stays; exact E|exact H]. }
    destruct (c =? 125). { destruct (close_step st TObject pos) as [st1|] eqn:E; [|discriminate]. eapply G; [eapply close_stays; exact E|exact H]. }
    destruct (c =? 93). { destruct (close_step st TArray pos) as [st1|] eqn:E; [|discriminate]. eapply G; [eapply close_stays; exact E|exact H]. }
    destruct (c =? 34).
    { destruct (parse_string r SPlain 0) as [n|]; [|discriminate]. destruct (leaf_step num st TString (pos + 1) (pos + 1 + n)) as [st1|] eqn:E; [|discriminate]. eapply G; [eapply leaf_stays; exact E|exact H]. }
    destruct ((c =? 9) || (c =? 13) || (c =? 10) || (c =? 32)). { eapply IH. exact H. }
    destruct (c =? 58). { eapply G; [apply colon_stays|exact H]. }
    destruct (c =? 44). { eapply G; [apply comma_stays|exact H]. }
    destruct (parse_primitive (c :: r) 0) as [n|]; [|discriminate]. destruct (leaf_step num st TPrim pos (pos + n)) as [st1|] eqn:E; [|discriminate]. eapply G; [eapply leaf_stays; exact E|exact H].
Qed.

(** ** The state after the members of a beginning *)

Definition super_ok (ms : list member) (pre : nat) (l : list token) (sup : nat) : Prop :=
  match ms with
  | [] => sup = pre
  | _ => exists t, nth_error l sup = Some t /\ is_container t = false
  end.

Lemma loop_members_super : forall ms num pre s k done r pos J P,
  Forall member_ok ms -> Forall leaf_tok done ->
  (List.length pre + List.length done + 2 * List.length ms + 1 <= num)%nat -> (ms <> [] -> ends r) ->
  J = P ++ join (s2b ",") (map member_text ms) ++ r -> pos = blen P ->
  exists toks sup, pairs_at J ms toks /\ Forall leaf_tok toks /\ List.length toks = (2 * List.length ms)%nat /\
    super_ok ms (List.length pre) (pre ++ obj_tok s (k + List.length ms) :: done ++ toks) sup /\
    jsmn_loop num (join (s2b ",") (map member_text ms) ++ r) pos 0 (mk_js (pre ++ obj_tok s k :: done) (Some (List.length pre))) =
    jsmn_loop num r (pos + blen (join (s2b ",") (map member_text ms))) 0
      (mk_js (pre ++ obj_tok s (k + List.length ms) :: done ++ toks) (Some sup)).
Proof.
  induction ms as [|m ms IH]; intros num pre s k done r pos J P Hok Hd Hn Hr HJ Hpos.
  - exists [], (List.length pre). split; [exact I|]. split; [constructor|]. split; [reflexivity|]. split; [reflexivity|].
    cbn [map join app List.length]. rewrite app_nil_r. f_equal; [unfold blen; cbn; lia|].
    do 3 f_equal. f_equal. lia.
  - specialize (Hr ltac:(discriminate)). inversion Hok as [|? ? Hm Hms]; subst.
    assert (Hkt : forall k (kt vt : token), nth_error (pre ++ obj_tok s k :: done ++ [kt; vt]) (List.length pre + 1 + List.length done)%nat = Some kt).
    { intros k' kt vt. change (obj_tok s k' :: done ++ [kt; vt]) with ((obj_tok s k' :: done) ++ kt :: [vt]).
      rewrite app_assoc. replace (List.length pre + 1 + List.length done)%nat with (List.length (pre ++ obj_tok s k' :: done))
        by (rewrite app_length; cbn [List.length]; lia). apply nth_mid. }
    destruct ms as [|m' ms].
    + cbn [map join] in *.
      destruct (loop_member m num pre s k done r (blen P) (P ++ member_text m ++ r) P) as [kt [vt [sup [H1 [H2 [H3 [H4 [H5 H6]]]]]]]];
        [assumption|cbn [List.length] in Hn; lia|assumption|reflexivity|reflexivity|].
      exists [kt; vt], sup. split; [cbn; auto|]. split; [repeat constructor; apply H3 || apply H4|]. split; [reflexivity|]. split.
      * exists kt. split; [rewrite H5; apply Hkt|apply H3].
      * rewrite H6. f_equal. do 3 f_equal. f_equal. cbn. lia.
    + assert (HJn : join (s2b ",") (map member_text (m :: m' :: ms)) =
                    member_text m ++ s2b "," ++ join (s2b ",") (map member_text (m' :: ms))) by reflexivity.
      rewrite HJn in *. clear HJn. set (rest := join (s2b ",") (map member_text (m' :: ms))) in *.
      assert (E1 : ends (s2b "," ++ rest ++ r)) by (exists 44, (rest ++ r); split; reflexivity).
      destruct (loop_member m num pre s k done (s2b "," ++ rest ++ r) (blen P) (P ++ (member_text m ++ s2b "," ++ rest) ++ r) P)
        as [kt [vt [sup [H1 [H2 [H3 [H4 [H5 H6]]]]]]]]; [assumption|cbn [List.length] in Hn; lia|assumption|
          rewrite <- !app_assoc; reflexivity|reflexivity|].
      destruct (IH num pre s (S k) (done ++ [kt; vt]) r (blen (P ++ member_text m ++ s2b ","))
        (P ++ (member_text m ++ s2b "," ++ rest) ++ r) (P ++ member_text m ++ s2b ","))
        as [toks [sup' [T1 [T2 [T4 [T5 T3]]]]]].
      { assumption. }
      { apply Forall_app. split; [assumption|]. repeat constructor; apply H3 || apply H4. }
      { rewrite app_length. cbn [List.length] in Hn |- *. lia. }
      { intros _. assumption. }
      { rewrite <- !app_assoc. reflexivity. }
      { reflexivity. }
      assert (Hl : pre ++ obj_tok s (k + List.length (m :: m' :: ms)) :: done ++ kt :: vt :: toks =
                   pre ++ obj_tok s (S k + List.length (m' :: ms)) :: (done ++ [kt; vt]) ++ toks).
      { replace (k + List.length (m :: m' :: ms))%nat with (S k + List.length (m' :: ms))%nat by (cbn [List.length]; lia). rewrite <- app_assoc. reflexivity. }
      exists (kt :: vt :: toks), sup'. split; [cbn [pairs_at]; auto|]. split; [repeat (constructor; [assumption|]); assumption|].
      split; [cbn [List.length] in *; lia|]. split; [rewrite Hl; exact T5|].
      rewrite <- !app_assoc. rewrite H6. rewrite loop_comma.
      rewrite (comma_at pre s (S k) (done ++ [kt; vt]) sup kt).
      * replace (blen P + blen (member_text m) + 1) with (blen (P ++ member_text m ++ s2b ",")) by (rewrite !blen_app; change (blen (s2b ",")) with 1; lia).
        fold rest in T3. rewrite T3. rewrite Hl. f_equal.
        rewrite !blen_app. change (blen (s2b ",")) with 1. lia.
      * apply Forall_app. split; [assumption|]. repeat constructor; apply H3 || apply H4.
      * rewrite H5. apply Hkt.
      * apply H3.
Qed.

Definition root_tok (p : N) : token := mk_tok TObject (Z.of_N p) (-1) 1.

Lemma opening_loop : forall w key ms R, layout_ok w -> Forall plain_char key -> Forall member_ok ms ->
  (List.length ms <= 14)%nat -> (ms <> [] -> ends R) ->
  exists p0 k0 op toks sup, tok_at (opening w key ms ++ R) k0 key /\ leaf_tok k0 /\
    pairs_at (opening w key ms ++ R) ms toks /\ Forall leaf_tok toks /\ List.length toks = (2 * List.length ms)%nat /\
    super_ok ms 2 (root_tok p0 :: k0 :: obj_tok op (List.length ms) :: toks) sup /\
    jsmn_parse (opening w key ms ++ R) 32 =
      jsmn_loop 32 R (blen (opening w key ms)) 0 (mk_js (root_tok p0 :: k0 :: obj_tok op (List.length ms) :: toks) (Some sup)).
Proof.
  intros [a b c d e f g] key ms R [Wa [Wb [Wc [Wd [We [Wf Wg]]]]]] HK Hms Hn ER.
  cbn [w_a w_b w_c w_d w_e w_f w_g] in *.
  set (J := opening (mk_lay a b c d e f g) key ms ++ R).
  assert (HJ : J = opening (mk_lay a b c d e f g) key ms ++ R) by reflexivity.
  unfold opening in HJ. cbn [w_a w_b w_c w_d] in HJ.
  set (M := join (s2b ",") (map member_text ms)) in *.
  set (P := a ++ s2b "{" ++ b ++ s2b """" ++ key ++ s2b """" ++ c ++ s2b ":" ++ d ++ s2b "{").
  assert (HJ2 : J = P ++ M ++ R) by (rewrite HJ; unfold P; rewrite <- !app_assoc; reflexivity).
  set (p0 := blen a). set (kp := p0 + 1 + blen b + 1).
  set (op := kp + blen key + 1 + blen c + 1 + blen d).
  set (k0 := mk_tok TString (Z.of_N kp) (Z.of_N (kp + blen key)) 1).
  destruct (loop_members_super ms 32 [root_tok p0; k0] op 0 [] R (blen P) J P) as [toks [sup [T1 [T2 [T4 [T5 T3]]]]]];
    [assumption|constructor|cbn [List.length]; lia|assumption|exact HJ2|reflexivity|].
  exists p0, k0, op, toks, sup.
  assert (Hop : blen P = op + 1).
  { unfold P, op, kp, p0. rewrite !blen_app. change (blen (s2b """")) with 1. change (blen (s2b ":")) with 1.
    change (blen (s2b "{")) with 1. lia. }
  split; [|split; [|split; [exact T1|split; [exact T2|split; [exact T4|split; [exact T5|]]]]]].
  - exists (a ++ s2b "{" ++ b ++ s2b """"). eexists. split.
    + rewrite HJ, <- !app_assoc. reflexivity.
    + unfold k0, kp, p0. cbn [tk_start tk_end]. rewrite !blen_app. change (blen (s2b """")) with 1. change (blen (s2b "{")) with 1. split; lia.
  - unfold leaf_tok, k0, is_open, is_container. cbn. split; [lia|reflexivity].
  - unfold jsmn_parse. rewrite HJ. rewrite <- !app_assoc. rewrite loop_ws by assumption. rewrite loop_open.
    unfold open_step, alloc_token. cbn [js_toks List.length Nat.ltb Nat.leb app incr_super js_super Nat.sub].
    rewrite loop_ws by assumption. rewrite loop_string by assumption.
    rewrite leaf_step_one.
    rewrite loop_ws by assumption. rewrite loop_colon. unfold colon_step. cbn [js_toks List.length Nat.sub].
    rewrite loop_ws by assumption. rewrite loop_open.
    unfold open_step, alloc_token. cbn [js_toks List.length Nat.ltb Nat.leb app incr_super js_super Nat.sub upd_nth].
    unfold incr_size. cbn [tk_type tk_start tk_end tk_size].
    rewrite !N.add_0_l. fold p0. change (0 + 1)%Z with 1%Z. fold (root_tok p0).
    replace (p0 + 1 + blen b + 2 + blen key + blen c + 1 + blen d) with op by (unfold op, kp; lia).
    replace (p0 + 1 + blen b + 1) with kp by (unfold kp; lia). fold k0.
    rewrite <- Hop.
    change (mk_tok TObject (Z.of_N op) (-1) 0) with (obj_tok op 0).
    change ([root_tok p0; k0; obj_tok op 0]) with ([root_tok p0; k0] ++ obj_tok op 0 :: []).
    change (Some 2%nat) with (Some (List.length [root_tok p0; k0])). fold M in T3. rewrite T3.
    cbn [Nat.add app]. f_equal.
    assert (Ho : opening (mk_lay a b c d e f g) key ms = P ++ M) by (unfold opening, P, M; cbn [w_a w_b w_c w_d]; rewrite <- !app_assoc; reflexivity).
    rewrite Ho, blen_app. reflexivity.
Qed.
