(** Request lines: which are served, and the path a handler gets. *)
From Coq Require Import ZifyBool ZifyNat ZifyN Sorted.
From Verif Require Import Base PBase MSerialize MHttp SHttp PHttp PHttp2 MTls MWire SWire PWire PWire2 PWire3 PWire4 PWire5 PWire6 PWire7 PWire8 STarget.
Open Scope N_scope.

(** ** Blanks and trimming *)

Lemma blank_iff c : space_or_tab c = true <-> blank_char c.
Proof. unfold space_or_tab, blank_char. lia. Qed.
Lemma blank_not c : space_or_tab c = false <-> ~ blank_char c.
Proof. unfold space_or_tab, blank_char. lia. Qed.
Lemma trim_left_blanks b s : blanks b -> trim_left (b ++ s) = trim_left s.
Proof. induction 1 as [|c b A F IH]; [reflexivity|]. cbn [app trim_left]. apply blank_iff in A. rewrite A. exact IH. Qed.
Lemma trim_left_split s : exists b r, s = b ++ r /\ blanks b /\ trim_left s = r /\ (r = [] \/ exists c t, r = c :: t /\ ~ blank_char c).
Proof.
  induction s as [|c s IH].
  - exists [], []. repeat split; [constructor|left; reflexivity].
  - cbn [trim_left]. destruct (space_or_tab c) eqn:E.
    + destruct IH as (b & r & E1 & B & T & R). exists (c :: b), r. rewrite E1. repeat split; [constructor; [apply blank_iff, E|exact B]|rewrite <- E1; exact T|exact R].
    + exists [], (c :: s). repeat split; [constructor|right; exists c, s; split; [reflexivity|apply blank_not, E]].
Qed.
Lemma blanks_rev b : blanks b -> blanks (rev b).
Proof. unfold blanks. rewrite !Forall_forall. intros F x I. apply F. apply in_rev. exact I. Qed.
Lemma trim_left_all b : blanks b -> trim_left b = [].
Proof. intro B. rewrite <- (app_nil_r b), (trim_left_blanks b [] B). reflexivity. Qed.
Definition edged (w : bytes) : Prop := (exists c r, w = c :: r /\ ~ blank_char c) /\ (exists r c, w = r ++ [c] /\ ~ blank_char c).
Lemma trim_edged b w a : blanks b -> edged w -> blanks a -> trim (b ++ w ++ a) = w.
Proof.
  intros B ((c & r & E & C) & (r2 & c2 & E2 & C2)) A. unfold trim. rewrite trim_left_blanks by exact B.
  assert (T : trim_left (w ++ a) = w ++ a).
  { rewrite E. cbn [app trim_left]. apply blank_not in C. rewrite C. reflexivity. }
  rewrite T. unfold trim_right. rewrite rev_app_distr, trim_left_blanks by (apply blanks_rev, A). rewrite E2, rev_app_distr. cbn [rev app trim_left]. apply blank_not in C2. rewrite C2.
  cbn [rev]. rewrite rev_involutive. reflexivity.
Qed.
Lemma trim_blanks b : blanks b -> trim b = [].
Proof. intro B. unfold trim. rewrite (trim_left_all b B). reflexivity. Qed.
Lemma trim_split s : (blanks s /\ trim s = []) \/ (exists b w a, s = b ++ w ++ a /\ blanks b /\ edged w /\ blanks a /\ trim s = w /\ w <> []).
Proof.
  destruct (trim_left_split s) as (b & r & E & B & T & [R|(c & t & R & C)]).
  - left. rewrite R, app_nil_r in E. clear T. subst s. split; [exact B|apply trim_blanks, B].
  - right. destruct (trim_left_split (rev r)) as (b2 & r2 & E2 & B2 & T2 & R2).
    assert (ER : r = rev r2 ++ rev b2) by (rewrite <- (rev_involutive r), E2, rev_app_distr; reflexivity).
    destruct R2 as [->|(c2 & t2 & -> & C2)].
    + exfalso. cbn [rev app] in ER. apply blanks_rev in B2. rewrite <- ER, R in B2. inversion B2. contradiction.
    + cbn [rev] in ER. assert (W : edged (rev t2 ++ [c2])).
      { split; [|exists (rev t2), c2; split; [reflexivity|exact C2]]. rewrite R in ER. destruct (rev t2) as [|x y]; cbn [app] in ER; injection ER as <- _; [exists c, [] |exists c, (y ++ [c2])]; (split; [reflexivity|exact C]). }
      exists b, (rev t2 ++ [c2]), (rev b2). split; [rewrite E, ER; reflexivity|]. split; [exact B|]. split; [exact W|]. split; [apply blanks_rev, B2|]. split.
      * rewrite E, ER. apply trim_edged; [exact B|exact W|apply blanks_rev, B2].
      * destruct (rev t2); discriminate.
Qed.
Lemma word_edged w : word w <-> Forall (fun c => c <> 32) w /\ edged w.
Proof. reflexivity. Qed.
Lemma edged_nonempty w : edged w -> w <> [].
Proof. intros ((c & r & -> & _) & _). discriminate. Qed.

(** ** Splitting at spaces *)

Lemma parts_fuel d : forall s m m' acc, (List.length s < m)%nat -> (List.length s < m')%nat -> parts m d acc s = parts m' d acc s.
Proof.
  induction s as [|c s IH]; intros m m' acc H H'; cbn [parts]; [reflexivity|]. cbn [List.length] in *.
  destruct m as [|[|m]]; [lia|lia|]. destruct m' as [|[|m']]; [lia|lia|]. destruct (c =? d); [f_equal|]; apply IH; lia.
Qed.
Lemma split_fuel d s m m' : (List.length s < m)%nat -> (List.length s < m')%nat -> split m d s = split m' d s.
Proof. intros H H'. unfold split. rewrite (parts_fuel d s m m' [] H H'). reflexivity. Qed.
Lemma split_cut m d p r : Forall (fun c => c <> d) p -> (List.length (p ++ d :: r) < m)%nat ->
  split m d (p ++ d :: r) = (if beqb (trim p) [] then [] else [trim p]) ++ split m d r.
Proof.
  intros F L. rewrite app_length in L. cbn [List.length] in L. destruct m as [|[|m]]; [lia|lia|]. unfold split at 1. rewrite parts_cut by exact F. cbn [rev app map filter].
  assert (E : filter (fun q => negb (beqb q [])) (map trim (parts (S m) d [] r)) = split (S (S m)) d r) by (rewrite <- (split_fuel d r (S m) (S (S m))) by lia; reflexivity).
  rewrite E. destruct (beqb (trim p) []); reflexivity.
Qed.
Lemma split_whole m d p : Forall (fun c => c <> d) p -> split m d p = if beqb (trim p) [] then [] else [trim p].
Proof. intro F. unfold split. rewrite parts_whole by exact F. cbn [rev app map filter]. destruct (beqb (trim p) []); reflexivity. Qed.
Lemma cut_at d s : (exists p r, s = p ++ d :: r /\ Forall (fun c => c <> d) p) \/ Forall (fun c : N => c <> d) s.
Proof.
  induction s as [|c s IH]; [right; constructor|]. destruct (N.eqb_spec c d) as [->|E].
  - left. exists [], s. split; [reflexivity|constructor].
  - destruct IH as [(p & r & -> & F)|F]; [left; exists (c :: p), r; split; [reflexivity|constructor; assumption]|right; constructor; assumption].
Qed.
Lemma split_lead d : forall b s m, blanks b -> d = 32 -> (List.length (b ++ s) < m)%nat -> split m d (b ++ s) = split m d s.
Proof.
  intros b s m B D. subst d. revert s. induction B as [|c b A F IH]; intros s L; [reflexivity|]. cbn [app List.length] in *.
  destruct A as [-> | ->].
  - change (32 :: b ++ s) with ([] ++ 32 :: (b ++ s)). rewrite split_cut by (try constructor; cbn [app List.length]; lia). change (beqb (trim []) []) with true. cbn [app]. apply IH. lia.
  - rewrite <- (IH s) by lia. remember (b ++ s) as u. clear Hequ IH F s. destruct (cut_at 32 u) as [(p & r & -> & F)|F].
    + change (9 :: p ++ 32 :: r) with ((9 :: p) ++ 32 :: r). rewrite app_length in L. cbn [List.length] in L.
      rewrite (split_cut m 32 (9 :: p) r) by (try (constructor; [discriminate|exact F]); cbn [app List.length]; rewrite app_length; cbn [List.length]; lia).
      rewrite (split_cut m 32 p r) by (try exact F; rewrite app_length; cbn [List.length]; lia). reflexivity.
    + rewrite (split_whole m 32 (9 :: u)) by (constructor; [discriminate|exact F]). rewrite (split_whole m 32 u) by exact F. reflexivity.
Qed.
Lemma split_word w a s m : word w -> apart a -> (List.length (w ++ a ++ s) < m)%nat -> split m 32 (w ++ a ++ s) = w :: split m 32 s.
Proof.
  intros [W1 W2] [B I] L. destruct (cut_at 32 a) as [(p & r & -> & F)|F]; [|exfalso; rewrite Forall_forall in F; exact (F 32 I eq_refl)].
  apply Forall_app in B as [B1 B2]. apply Forall_cons_iff in B2 as [_ B2].
  replace (w ++ (p ++ 32 :: r) ++ s) with ((w ++ p) ++ 32 :: (r ++ s)) in * by (rewrite <- !app_assoc; reflexivity).
  rewrite split_cut by (try exact L; apply Forall_app; split; assumption). pose proof (trim_edged [] w p ltac:(constructor) W2 B1) as T. cbn [app] in T. rewrite T.
  pose proof (edged_nonempty w W2) as NE. apply beqb_neq in NE. rewrite NE. cbn [app]. f_equal. apply split_lead; [exact B2|reflexivity|]. rewrite app_length in L. cbn [List.length] in L. lia.
Qed.
Lemma split_last w a m : word w -> blanks a -> (List.length (w ++ a) < m)%nat -> split m 32 (w ++ a) = [w].
Proof.
  intros W B L. destruct (cut_at 32 a) as [(p & r & E & F)|F].
  - assert (A : apart a) by (split; [exact B|rewrite E; apply in_or_app; right; left; reflexivity]). rewrite <- (app_nil_r a). rewrite (split_word w a [] m W A) by (rewrite app_nil_r; exact L). reflexivity.
  - destruct W as [W1 W2]. rewrite split_whole by (apply Forall_app; split; assumption). pose proof (trim_edged [] w a ltac:(constructor) W2 B) as T. cbn [app] in T. rewrite T.
    pose proof (edged_nonempty w W2) as NE. apply beqb_neq in NE. rewrite NE. reflexivity.
Qed.
Lemma split_three p m t v n : line_words p m t v -> (List.length p < n)%nat -> split n 32 p = [m; t; v].
Proof.
  intros (b0 & b1 & b2 & b3 & -> & B0 & B1 & B2 & B3 & M & T & V) L. rewrite split_lead by (try exact B0; try reflexivity; exact L).
  rewrite !app_length in L. rewrite (split_word m b1) by (try assumption; rewrite !app_length; lia). rewrite (split_word t b2) by (try assumption; rewrite !app_length; lia).
  rewrite split_last by (try assumption; rewrite !app_length; lia). reflexivity.
Qed.

(** The other way: the first of the words. *)
Lemma split_first : forall k s n w ws, (List.length s <= k)%nat -> (List.length s < n)%nat -> split n 32 s = w :: ws ->
  exists b a, blanks b /\ word w /\ ((exists r, s = b ++ w ++ a ++ 32 :: r /\ blanks a /\ split n 32 r = ws) \/ (s = b ++ w ++ a /\ blanks a /\ ws = [])).
Proof.
  induction k as [|k IH]; intros s n w ws K L E.
  - destruct s; [discriminate E|cbn in K; lia].
  - destruct (cut_at 32 s) as [(p & r & -> & F)|F].
    + rewrite split_cut in E by (try exact F; exact L). rewrite app_length in K, L. cbn [List.length] in K, L. destruct (trim_split p) as [[B T]|(b & w' & a & E1 & B & W & A & T & NE)].
      * rewrite T in E. change (beqb [] []) with true in E. cbn [app] in E. destruct (IH r n w ws ltac:(lia) ltac:(lia) E) as (b & a & Bb & W & [(r2 & -> & A & S2)|(-> & A & ->)]).
        -- exists (p ++ 32 :: b), a. split; [apply Forall_app; split; [exact B|constructor; [left; reflexivity|exact Bb]]|]. split; [exact W|]. left. exists r2. split; [rewrite <- app_assoc; reflexivity|]. split; assumption.
        -- exists (p ++ 32 :: b), a. split; [apply Forall_app; split; [exact B|constructor; [left; reflexivity|exact Bb]]|]. split; [exact W|]. right. split; [rewrite <- app_assoc; reflexivity|]. split; [exact A|reflexivity].
      * rewrite T in E. apply beqb_neq in NE. rewrite NE in E. cbn [app] in E. injection E as <- <-. exists b, a. split; [exact B|]. split.
        -- rewrite E1 in F. apply Forall_app in F as [_ F]. apply Forall_app in F as [F _]. split; [exact F|exact W].
        -- left. exists r. split; [rewrite E1, <- !app_assoc; reflexivity|]. split; [exact A|reflexivity].
    + rewrite split_whole in E by exact F. destruct (trim_split s) as [[B T]|(b & w' & a & E1 & B & W & A & T & NE)].
      * rewrite T in E. discriminate E.
      * rewrite T in E. apply beqb_neq in NE. rewrite NE in E. injection E as <- <-. exists b, a. split; [exact B|]. split.
        -- rewrite E1 in F. apply Forall_app in F as [_ F]. apply Forall_app in F as [F _]. split; [exact F|exact W].
        -- right. split; [exact E1|]. split; [exact A|reflexivity].
Qed.
Lemma three_split p m t v n : (List.length p < n)%nat -> split n 32 p = [m; t; v] -> line_words p m t v.
Proof.
  intros L E. destruct (split_first _ p n m [t; v] (le_n _) L E) as (b0 & a0 & B0 & M & [(r & -> & A0 & E1)|(_ & _ & Q)]); [|discriminate Q].
  rewrite !app_length in L. cbn [List.length] in L. destruct (split_first _ r n t [v] (le_n _) ltac:(lia) E1) as (b1 & a1 & B1 & T & [(r2 & -> & A1 & E2)|(_ & _ & Q)]); [|discriminate Q].
  rewrite !app_length in L. cbn [List.length] in L. destruct (split_first _ r2 n v [] (le_n _) ltac:(lia) E2) as (b2 & a2 & B2 & V & Q).
  assert (AP : forall a b, blanks a -> blanks b -> apart (a ++ 32 :: b)).
  { intros a b A B. split; [apply Forall_app; split; [exact A|constructor; [left; reflexivity|exact B]]|apply in_or_app; right; left; reflexivity]. }
  destruct Q as [(r3 & -> & A2 & E3)|(-> & A2 & _)].
  - exists b0, (a0 ++ 32 :: b1), (a1 ++ 32 :: b2), (a2 ++ 32 :: r3). split; [rewrite <- !app_assoc; cbn [app]; rewrite <- ?app_assoc; reflexivity|].
    assert (R3 : blanks r3).
    { rewrite ?app_length in L. cbn [List.length] in L. assert (L3 : (List.length r3 < n)%nat) by (rewrite ?app_length in L; cbn [List.length] in L; lia). clear - E3 L3.
      revert E3 L3. remember (List.length r3) as k eqn:K. assert (K' : (List.length r3 <= k)%nat) by lia. clear K. revert r3 K'. induction k as [|k IH]; intros r3 K E L.
      - destruct r3; [constructor|cbn in K; lia].
      - destruct (cut_at 32 r3) as [(p & r & -> & F)|F].
        + assert (Ln : (List.length (p ++ 32%N :: r) < n)%nat) by lia. rewrite split_cut in E by (try exact F; exact Ln). rewrite app_length in K, Ln. cbn [List.length] in K, Ln.
          destruct (trim_split p) as [[B T]|(b & w' & a & E1 & B & W & A & T & NE)].
          * rewrite T in E. change (beqb [] []) with true in E. cbn [app] in E. apply Forall_app. split; [exact B|]. constructor; [left; reflexivity|]. apply IH; [lia|exact E|lia].
          * rewrite T in E. apply beqb_neq in NE. rewrite NE in E. discriminate E.
        + rewrite split_whole in E by exact F. destruct (trim_split r3) as [[B T]|(b & w' & a & E1 & B & W & A & T & NE)]; [exact B|]. rewrite T in E. apply beqb_neq in NE. rewrite NE in E. discriminate E. }
    repeat split; try assumption; try apply AP; try assumption; try apply M; try apply T; try apply V.
  - exists b0, (a0 ++ 32 :: b1), (a1 ++ 32 :: b2), a2. split; [rewrite <- !app_assoc; cbn [app]; rewrite <- ?app_assoc; reflexivity|].
    repeat split; try assumption; try apply AP; try assumption; try apply M; try apply T; try apply V.
Qed.
