(** Proofs about the command line. *)
From Verif Require Import Base PBase MOs MHeap MArray MVoucher MCrypto MConfig MHandlers MLog MSignCert MMain SHeap SArray SConfig SMain.
Open Scope N_scope.

(** *** Numbers *)
Lemma is_dec_digit : forall c, is_dec c = true <-> digit c.
Proof. intros c. unfold is_dec, digit. rewrite Bool.andb_true_iff, !N.leb_le. tauto. Qed.
Lemma is_blank_blank : forall c, is_blank c = true <-> blank c.
Proof. intros c. unfold is_blank, blank. rewrite Bool.orb_true_iff, Bool.andb_true_iff, !N.leb_le, N.eqb_eq. tauto. Qed.
Lemma digits_value_app : forall d rest acc, Forall digit d -> (forall c r, rest = c :: r -> ~ digit c) ->
  digits_value acc (d ++ rest) = fold_left (fun n c => n * 10 + (c - 48)) d acc.
Proof.
  induction d as [|c d IH]; intros rest acc F R; cbn [app fold_left].
  - destruct rest as [|c r]; [reflexivity|]. cbn [digits_value]. destruct (is_dec c) eqn:E; [|reflexivity]. apply is_dec_digit in E. destruct (R c r eq_refl E).
  - inversion F; subst. cbn [digits_value]. rewrite (proj2 (is_dec_digit c)) by assumption. apply IH; assumption.
Qed.
Lemma skip_blanks_app : forall b r, Forall blank b -> (forall c t, r = c :: t -> ~ blank c) -> skip_blanks (b ++ r) = r.
Proof.
  induction b as [|c b IH]; intros r F R; cbn [app].
  - destruct r as [|c t]; [reflexivity|]. cbn [skip_blanks]. destruct (is_blank c) eqn:E; [|reflexivity]. apply is_blank_blank in E. destruct (R c t eq_refl E).
  - inversion F; subst. cbn [skip_blanks]. rewrite (proj2 (is_blank_blank c)) by assumption. apply IH; assumption.
Qed.
Lemma digit_plain : forall c, digit c -> ~ blank c /\ c <> 43 /\ c <> 45.
Proof. intros c [A B]. unfold blank. lia. Qed.

Lemma strtol_value : forall blanks sign digits rest, Forall blank blanks -> (sign = [] \/ sign = s2b "+" \/ sign = s2b "-") -> Forall digit digits ->
  (forall c r, rest = c :: r -> ~ digit c /\ (sign = [] -> digits = [] -> ~ blank c /\ c <> 43 /\ c <> 45)) ->
  strtol (blanks ++ sign ++ digits ++ rest) = cut_to_long (beqb sign (s2b "-")) (value digits).
Proof.
  intros b s d r Fb Hs Fd Hr. assert (ND : forall c t, r = c :: t -> ~ digit c) by (intros c t Q; apply (Hr c t Q)).
  unfold strtol. rewrite skip_blanks_app; [|exact Fb|].
  - destruct Hs as [->|[->| ->]].
    + cbn [app]. destruct d as [|c d].
      * cbn [app]. destruct r as [|c t]; [reflexivity|]. destruct (Hr c t eq_refl) as [Q1 Q2]. destruct (Q2 eq_refl eq_refl) as (_ & Q3 & Q4).
        rewrite (proj2 (N.eqb_neq _ _) Q3), (proj2 (N.eqb_neq _ _) Q4). change (c :: t) with ([] ++ c :: t). rewrite digits_value_app; [reflexivity|constructor|exact ND].
      * inversion Fd as [|? ? Dc Dd]; subst. destruct (digit_plain c Dc) as (_ & Q3 & Q4). cbn [app].
        rewrite (proj2 (N.eqb_neq _ _) Q3), (proj2 (N.eqb_neq _ _) Q4). change (c :: d ++ r) with ((c :: d) ++ r). rewrite digits_value_app; [reflexivity|exact Fd|exact ND].
    + change (s2b "+") with [43]. cbn [app]. change (43 =? 45) with false. change (43 =? 43) with true. cbv iota. rewrite digits_value_app; [reflexivity|exact Fd|exact ND].
    + change (s2b "-") with [45]. cbn [app]. change (45 =? 45) with true. cbv iota. rewrite digits_value_app; [reflexivity|exact Fd|exact ND].
  - intros c t Q. destruct Hs as [->|[->| ->]].
    + cbn [app] in Q. destruct d as [|c' d]; [cbn [app] in Q; apply (Hr c t Q); reflexivity|]. inversion Fd; subst. cbn [app] in Q. injection Q as <- _. apply digit_plain; assumption.
    + cbn in Q. injection Q as <- _. unfold blank. lia.
    + cbn in Q. injection Q as <- _. unfold blank. lia.
Qed.

Lemma take_digits : forall t, exists d r, t = d ++ r /\ Forall digit d /\ (forall c x, r = c :: x -> ~ digit c).
Proof.
  induction t as [|c t (d & r & E & F & R)]; [exists [], []; split; [reflexivity|split; [constructor|discriminate]]|].
  destruct (is_dec c) eqn:D.
  - exists (c :: d), r. split; [cbn; congruence|]. split; [constructor; [apply is_dec_digit; exact D|exact F]|exact R].
  - exists [], (c :: t). split; [reflexivity|]. split; [constructor|]. intros c' x Q. injection Q as <- _. rewrite <- is_dec_digit. congruence.
Qed.
Lemma take_blanks : forall t, exists d r, t = d ++ r /\ Forall blank d /\ (forall c x, r = c :: x -> ~ blank c).
Proof.
  induction t as [|c t (d & r & E & F & R)]; [exists [], []; split; [reflexivity|split; [constructor|discriminate]]|].
  destruct (is_blank c) eqn:D.
  - exists (c :: d), r. split; [cbn; congruence|]. split; [constructor; [apply is_blank_blank; exact D|exact F]|exact R].
  - exists [], (c :: t). split; [reflexivity|]. split; [constructor|]. intros c' x Q. injection Q as <- _. rewrite <- is_blank_blank. congruence.
Qed.
Lemma to_uint_value : forall z, Z.of_N (to_uint z) = (z mod 2 ^ 32)%Z.
Proof. intros z. unfold to_uint. change (2 ^ 32)%Z with 4294967296%Z. rewrite Z2N.id; [reflexivity|]. apply Z.mod_pos_bound. reflexivity. Qed.

Lemma port_means_iff : forall t n, port_means t n <-> n = to_uint (strtol t).
Proof.
  intros t n. split.
  - intros (b & s & d & r & -> & Fb & Hs & Fd & Hr & E). rewrite <- (strtol_value b s d r Fb Hs Fd Hr) in E. rewrite <- to_uint_value in E. lia.
  - intros ->. destruct (take_blanks t) as (b & r & -> & Fb & Rb).
    assert (K : forall s x, r = s ++ x -> (s = [] \/ s = s2b "+" \/ s = s2b "-") -> (s = [] -> forall c y, x = c :: y -> c <> 43 /\ c <> 45) -> port_means (b ++ r) (to_uint (strtol (b ++ r)))).
    { intros s x -> Hs Hx. destruct (take_digits x) as (d & y & -> & Fd & Rd).
      assert (Hr : forall c z, y = c :: z -> ~ digit c /\ (s = [] -> d = [] -> ~ blank c /\ c <> 43 /\ c <> 45)).
      { intros c z ->. split; [apply (Rd c z eq_refl)|]. intros -> ->. split; [apply (Rb c z eq_refl)|apply (Hx eq_refl c z eq_refl)]. }
      exists b, s, d, y. do 5 (split; [assumption || reflexivity|]). rewrite <- (strtol_value b s d y Fb Hs Fd Hr). apply to_uint_value. }
    destruct r as [|c r].
    + apply (K [] []); [reflexivity|auto|discriminate].
    + destruct (N.eq_dec c 43) as [->|N1]; [apply (K (s2b "+") r); [reflexivity|auto|discriminate]|].
      destruct (N.eq_dec c 45) as [->|N2]; [apply (K (s2b "-") r); [reflexivity|auto|discriminate]|].
      apply (K [] (c :: r)); [reflexivity|auto|]. intros _ c' y Q. injection Q as <- _. auto.
Qed.

Lemma numeral_port : forall t n, numeral t n -> n < 4294967296 -> port_means t n.
Proof.
  intros t n (NE & F & V) L. exists [], [], t, []. split; [cbn [app]; rewrite app_nil_r; reflexivity|]. split; [constructor|]. split; [auto|]. split; [exact F|]. split; [discriminate|].
  change (beqb [] (s2b "-")) with false. unfold cut_to_long. rewrite V. change (2 ^ 63)%Z with 9223372036854775808%Z. change (2 ^ 32)%Z with 4294967296%Z. rewrite Z.min_r by lia. rewrite Z.mod_small by lia. reflexivity.
Qed.

(** *** Words *)
Lemma takes_arg_iff : forall c, with_arg c = true <-> takes_arg c.
Proof.
  intros c. unfold with_arg, takes_arg. rewrite existsb_exists. split.
  - intros (x & I & E). apply N.eqb_eq in E. subst. exact I.
  - intros I. exists c. split; [exact I|apply N.eqb_refl].
Qed.
Lemma takes_not_d : forall c, takes_arg c -> c <> 100.
Proof. intros c H ->. cbn in H. repeat (destruct H as [H|H]; [discriminate|]). exact H. Qed.

Definition louder (n : nat) (o : options) : options := if Nat.eqb n 0 then o else set_verbose o.
Lemma louder_S : forall n o, louder n (set_verbose o) = louder (S n) o.
Proof. intros [|n] o; reflexivity. Qed.
Lemma word_ds : forall n r o, word_options (ds n ++ r) o = word_options r (louder n o).
Proof. induction n as [|n IH]; intros r o; [reflexivity|]. cbn [ds repeat app]. change (repeat 100 n) with (ds n). cbn [word_options]. change (with_arg 100) with false. change (100 =? 100) with true. cbv iota. rewrite IH, louder_S. reflexivity. Qed.

Lemma word_cases : forall w o, w <> [] ->
  (exists n, w = ds (S n) /\ word_options w o = WDone (set_verbose o)) \/
  (exists n c a, w = ds n ++ c :: a /\ a <> [] /\ takes_arg c /\ word_options w o = WDone (set_option c a (louder n o))) \/
  (exists n c, w = ds n ++ [c] /\ takes_arg c /\ word_options w o = WNext c (louder n o)) \/
  (exists n c r, w = ds n ++ c :: r /\ (c = 104 /\ word_options w o = WExit LHelp \/ c = 118 /\ word_options w o = WExit LVersion)) \/
  (exists n c r, w = ds n ++ c :: r /\ ~ takes_arg c /\ c <> 100 /\ c <> 104 /\ c <> 118 /\ word_options w o = WExit LBadOption).
Proof.
  induction w as [|c w IH]; intros o NE; [congruence|]. cbn [word_options]. destruct (with_arg c) eqn:E1.
  - apply takes_arg_iff in E1. destruct w as [|a w].
    + right. right. left. exists 0%nat, c. auto.
    + right. left. exists 0%nat, c, (a :: w). split; [reflexivity|]. split; [discriminate|]. split; [exact E1|reflexivity].
  - destruct (N.eqb_spec c 100) as [->|ND].
    + destruct w as [|x w]; [left; exists 0%nat; split; reflexivity|].
      destruct (IH (set_verbose o) ltac:(discriminate)) as [(n & Hw & R)|[(n & c & a & Hw & Ha & T & R)|[(n & c & Hw & T & R)|[(n & c & r & Hw & [[T R]|[T R]])|(n & c & r & Hw & T & T1 & T2 & T3 & R)]]]]; rewrite R; rewrite ?louder_S.
      * left. exists (S n). split; [rewrite Hw; reflexivity|reflexivity].
      * right. left. exists (S n), c, a. split; [rewrite Hw; reflexivity|]. auto.
      * right. right. left. exists (S n), c. split; [rewrite Hw; reflexivity|]. auto.
      * right. right. right. left. exists (S n), c, r. split; [rewrite Hw; reflexivity|]. auto.
      * right. right. right. left. exists (S n), c, r. split; [rewrite Hw; reflexivity|]. auto.
      * right. right. right. right. exists (S n), c, r. split; [rewrite Hw; reflexivity|]. auto 10.
    + assert (T : ~ takes_arg c) by (rewrite <- takes_arg_iff; congruence). destruct (without_arg c) eqn:E2.
      * right. right. right. left. exists 0%nat, c, w. split; [reflexivity|]. unfold without_arg in E2. apply existsb_exists in E2. destruct E2 as (x & I & E2). apply N.eqb_eq in E2. subst x. cbn in I. destruct I as [I|[I|[I|[]]]]; [lia| |]; rewrite <- I; [right|left]; split; reflexivity.
      * right. right. right. right. exists 0%nat, c, w. split; [reflexivity|]. split; [exact T|]. split; [exact ND|].
        split; [intros ->; discriminate E2|]. split; [intros ->; discriminate E2|reflexivity].
Qed.

Lemma beqb_true : forall a, beqb a a = true.
Proof. intros a. apply beqb_eq. reflexivity. Qed.
Lemma beqb_false : forall a b, a <> b -> beqb a b = false.
Proof. intros a b H. destruct (beqb a b) eqn:E; [apply beqb_eq in E; contradiction|reflexivity]. Qed.

(** What [scan_words] does with a word. *)
Lemma scan_operand : forall w args o rest, (w = [45] \/ forall r, w <> 45 :: r) -> scan_words (w :: args) o rest = scan_words args o (rest ++ [w]).
Proof.
  intros w args o rest H. cbn [scan_words]. destruct H as [->|H]; [reflexivity|]. destruct w as [|c w]; [reflexivity|]. cbn [firstn]. rewrite beqb_false; [reflexivity|]. intros Q. injection Q as ->. exact (H w eq_refl).
Qed.
Lemma scan_option : forall w args o rest, w <> [] -> w <> [45] -> scan_words ((45 :: w) :: args) o rest =
  match word_options w o with
  | WDone o => scan_words args o rest
  | WExit s => inr s
  | WNext c o => match args with [] => inr LBadOption | a :: args => scan_words args (set_option c a o) rest end
  end.
Proof.
  intros w args o rest N1 N2. cbn [scan_words firstn skipn]. rewrite (beqb_true [45]), (beqb_false (45 :: w) [45]), (beqb_false (45 :: w) [45; 45]) by congruence. reflexivity.
Qed.
Lemma not_dash : forall n c r, takes_arg c \/ c = 104 \/ c = 118 \/ c = 100 -> ds n ++ c :: r <> [] /\ ds n ++ c :: r <> [45].
Proof.
  intros n c r H. destruct n as [|n]; cbn [ds repeat app]; (split; [discriminate|]); intros Q; [|discriminate Q]. injection Q as -> _.
  destruct H as [H|H]; [cbn in H; repeat (destruct H as [H|H]; [discriminate|]); exact H|lia].
Qed.
Lemma ds_app : forall n, ds (S n) = ds n ++ [100].
Proof. induction n as [|n IH]; [reflexivity|]. cbn [ds repeat app] in *. f_equal. exact IH. Qed.

(** *** Pieces *)
Definition step (o : options) (p : piece) : options :=
  match p with PFlags _ => set_verbose o | PJoined n c a | PApart n c a => set_option c a (louder n o) | PWord _ => o end.
Definition word_of (p : piece) : list bytes := match p with PWord w => [w] | _ => [] end.

Lemma scan_piece : forall p args o rest, piece_ok p -> scan_words (words p ++ args) o rest = scan_words args (step o p) (rest ++ word_of p).
Proof.
  intros [n|n c a|n c a|w] args o rest H; cbn [words app step word_of piece_ok] in *; rewrite ?app_nil_r.
  - destruct (not_dash n 100 [] ltac:(auto)) as [N1 N2]. rewrite <- ds_app in N1, N2. rewrite scan_option by assumption.
    replace (ds (S n)) with (ds (S n) ++ []) by apply app_nil_r. rewrite word_ds. reflexivity.
  - destruct H as [T A]. destruct (not_dash n c a ltac:(auto)) as [N1 N2]. rewrite scan_option by assumption. rewrite word_ds. cbn [word_options]. rewrite (proj2 (takes_arg_iff c) T). destruct a; [congruence|reflexivity].
  - destruct (not_dash n c [] ltac:(auto)) as [N1 N2]. rewrite scan_option by assumption. rewrite word_ds. cbn [word_options]. rewrite (proj2 (takes_arg_iff c) H). reflexivity.
  - apply scan_operand. exact H.
Qed.
Lemma scan_pieces : forall ps args o rest, Forall piece_ok ps -> scan_words (flat_map words ps ++ args) o rest = scan_words args (fold_left step ps o) (rest ++ flat_map word_of ps).
Proof.
  induction ps as [|p ps IH]; intros args o rest F; cbn [flat_map fold_left]; [rewrite app_nil_r; reflexivity|].
  inversion F; subst. rewrite <- app_assoc, scan_piece by assumption. rewrite IH by assumption. rewrite <- app_assoc. reflexivity.
Qed.

Definition says (ps : list piece) (o o' : options) : Prop :=
  op_verbose o' = (op_verbose o || loud ps) /\
  op_config o' = match given 99 ps with Some a => a | None => op_config o end /\
  op_in o' = match given 105 ps with Some a => a | None => op_in o end /\
  op_out o' = match given 111 ps with Some a => a | None => op_out o end /\
  op_address o' = match given 97 ps with Some a => a | None => op_address o end /\
  op_port o' = match given 112 ps with Some a => to_uint (strtol a) | None => op_port o end.
Lemma louder_says : forall n o, says [] o o -> op_verbose (louder n o) = (op_verbose o || negb (Nat.eqb n 0)) /\ op_config (louder n o) = op_config o /\ op_in (louder n o) = op_in o /\ op_out (louder n o) = op_out o /\ op_address (louder n o) = op_address o /\ op_port (louder n o) = op_port o.
Proof. intros [|n] o _; cbn; rewrite ?Bool.orb_false_r, ?Bool.orb_true_r; repeat split; reflexivity. Qed.
Lemma says_refl : forall o, says [] o o.
Proof. intros o. unfold says. cbn. rewrite Bool.orb_false_r. repeat split; reflexivity. Qed.
Lemma says_step : forall p ps o o', piece_ok p -> says ps (step o p) o' -> says (p :: ps) o o'.
Proof.
  intros p ps o o' OK (S1 & S2 & S3 & S4 & S5 & S6). unfold says. cbn [given loud existsb] in *. fold (loud ps) in *.
  destruct p as [n|n c a|n c a|w]; cbn [step piece_ok] in *.
  - rewrite S1, S2, S3, S4, S5, S6. cbn. rewrite Bool.orb_true_r. destruct (given 99 ps), (given 105 ps), (given 111 ps), (given 97 ps), (given 112 ps); repeat split; reflexivity.
  - destruct OK as [T _]. destruct (louder_says n o (says_refl o)) as (L1 & L2 & L3 & L4 & L5 & L6). rewrite S1, S2, S3, S4, S5, S6.
    cbn in T. destruct T as [<-|[<-|[<-|[<-|[<-|[]]]]]]; cbn; rewrite ?L1, ?L2, ?L3, ?L4, ?L5, ?L6, <- ?Bool.orb_assoc; destruct (given 99 ps), (given 105 ps), (given 111 ps), (given 97 ps), (given 112 ps); repeat split; reflexivity.
  - destruct (louder_says n o (says_refl o)) as (L1 & L2 & L3 & L4 & L5 & L6). rewrite S1, S2, S3, S4, S5, S6.
    cbn in OK. destruct OK as [<-|[<-|[<-|[<-|[<-|[]]]]]]; cbn; rewrite ?L1, ?L2, ?L3, ?L4, ?L5, ?L6, <- ?Bool.orb_assoc; destruct (given 99 ps), (given 105 ps), (given 111 ps), (given 97 ps), (given 112 ps); repeat split; reflexivity.
  - rewrite S1, S2, S3, S4, S5, S6. destruct (given 99 ps), (given 105 ps), (given 111 ps), (given 97 ps), (given 112 ps); repeat split; reflexivity.
Qed.
Lemma says_pieces : forall ps o, Forall piece_ok ps -> says ps o (fold_left step ps o).
Proof. induction ps as [|p ps IH]; intros o F; [apply says_refl|]. inversion F; subst. apply says_step; [assumption|]. apply IH. assumption. Qed.

(** Every line is pieces followed by the end, by --, or by a word that stops the
    program. *)
Lemma line_cases : forall n args, (List.length args <= n)%nat -> exists ps, Forall piece_ok ps /\
  (args = flat_map words ps \/ (exists l, args = flat_map words ps ++ s2b "--" :: l) \/
   (exists k c r rest, (c = 104 \/ c = 118) /\ args = flat_map words ps ++ (45 :: ds k ++ c :: r) :: rest) \/
   (exists k c r rest, unknown c /\ ds k ++ c :: r <> s2b "-" /\ args = flat_map words ps ++ (45 :: ds k ++ c :: r) :: rest) \/
   (exists k c, takes_arg c /\ args = flat_map words ps ++ [45 :: ds k ++ [c]])).
Proof.
  induction n as [|n IH]; intros args L.
  { destruct args; [|cbn in L; lia]. exists []. split; [constructor|left; reflexivity]. }
  destruct args as [|w args]; [exists []; split; [constructor|left; reflexivity]|]. cbn [List.length] in L.
  assert (GO : forall p args', piece_ok p -> w :: args = words p ++ args' -> (List.length args' <= n)%nat -> exists ps, Forall piece_ok ps /\
    (w :: args = flat_map words ps \/ (exists l, w :: args = flat_map words ps ++ s2b "--" :: l) \/
     (exists k c r rest, (c = 104 \/ c = 118) /\ w :: args = flat_map words ps ++ (45 :: ds k ++ c :: r) :: rest) \/
     (exists k c r rest, unknown c /\ ds k ++ c :: r <> s2b "-" /\ w :: args = flat_map words ps ++ (45 :: ds k ++ c :: r) :: rest) \/
     (exists k c, takes_arg c /\ w :: args = flat_map words ps ++ [45 :: ds k ++ [c]]))).
  { intros p args' OK E Ln. destruct (IH args' Ln) as (ps & F & D). exists (p :: ps). split; [constructor; assumption|]. cbn [flat_map].
    destruct D as [->|[(l & ->)|[(k & c & r & rest & Hc & ->)|[(k & c & r & rest & Q & Q2 & ->)|(k & c & T & ->)]]]].
    - left. exact E.
    - right. left. exists l. rewrite <- app_assoc. exact E.
    - right. right. left. exists k, c, r, rest. split; [exact Hc|]. rewrite <- app_assoc. exact E.
    - right. right. right. left. exists k, c, r, rest. split; [exact Q|]. split; [exact Q2|]. rewrite <- app_assoc; exact E.
    - right. right. right. right. exists k, c. split; [exact T|]. rewrite <- app_assoc. exact E. }
  destruct w as [|x w]; [apply (GO (PWord []) args); [right; discriminate|reflexivity|lia]|].
  destruct (N.eq_dec x 45) as [->|NX]; [|apply (GO (PWord (x :: w)) args); [right; intros r Q; congruence|reflexivity|lia]].
  destruct w as [|y w]; [apply (GO (PWord [45]) args); [left; reflexivity|reflexivity|lia]|].
  destruct (bytes_dec (y :: w) [45]) as [E|NE2]; [exists []; split; [constructor|]; right; left; exists args; rewrite E; reflexivity|].
  destruct (word_cases (y :: w) no_options ltac:(discriminate)) as [(k & Hw & _)|[(k & c & a & Hw & Ha & T & _)|[(k & c & Hw & T & _)|[(k & c & r & Hw & T)|(k & c & r & Hw & T & T1 & T2 & T3 & _)]]]]; rewrite Hw in *.
  - apply (GO (PFlags k) args); [exact Logic.I|reflexivity|lia].
  - apply (GO (PJoined k c a) args); [split; assumption|reflexivity|lia].
  - destruct args as [|a args]; [exists []; split; [constructor|]; right; right; right; right; exists k, c; split; [exact T|reflexivity]|].
    apply (GO (PApart k c a) args); [exact T|reflexivity|cbn in L; lia].
  - exists []. split; [constructor|]. right. right. left. exists k, c, r, args. split; [tauto|reflexivity].
  - exists []. split; [constructor|]. right. right. right. left. exists k, c, r, args. split; [split; auto|]. split; [exact NE2|reflexivity].
Qed.

Lemma word_unknown : forall k c r o, unknown c -> word_options (ds k ++ c :: r) o = WExit LBadOption.
Proof.
  intros k c r o (T & T1 & T2 & T3). rewrite word_ds. cbn [word_options]. destruct (with_arg c) eqn:E1; [apply takes_arg_iff in E1; contradiction|]. rewrite (proj2 (N.eqb_neq _ _) T1).
  destruct (without_arg c) eqn:E2; [|reflexivity]. exfalso. unfold without_arg in E2. apply existsb_exists in E2. destruct E2 as (z & I & E2). apply N.eqb_eq in E2. subst z. cbn in I. destruct I as [I|[I|[I|[]]]]; lia.
Qed.
Lemma scan_unknown : forall ps k c r rest, Forall piece_ok ps -> unknown c -> ds k ++ c :: r <> s2b "-" -> process_options (flat_map words ps ++ (45 :: ds k ++ c :: r) :: rest) = inr LBadOption.
Proof.
  intros ps k c r rest F U N2. unfold process_options. rewrite scan_pieces by exact F. rewrite scan_option; [|destruct k; discriminate|exact N2]. rewrite word_unknown by exact U. destruct (flat_map words ps); reflexivity.
Qed.
Lemma scan_lacking : forall ps k c, Forall piece_ok ps -> takes_arg c -> process_options (flat_map words ps ++ [45 :: ds k ++ [c]]) = inr LBadOption.
Proof.
  intros ps k c F T. unfold process_options. rewrite scan_pieces by exact F. destruct (not_dash k c [] ltac:(auto)) as [N1 N2]. rewrite scan_option by assumption. rewrite word_ds. cbn [word_options]. rewrite (proj2 (takes_arg_iff c) T). destruct (flat_map words ps); reflexivity.
Qed.
Lemma scan_h : forall ps k r rest, Forall piece_ok ps -> process_options (flat_map words ps ++ (45 :: ds k ++ 104 :: r) :: rest) = inr LHelp.
Proof.
  intros ps k r rest F. unfold process_options. rewrite scan_pieces by exact F. destruct (not_dash k 104 r ltac:(auto)) as [N1 N2]. rewrite scan_option by assumption. rewrite word_ds. cbn [word_options].
  change (with_arg 104) with false. change (without_arg 104) with true. change (104 =? 104) with true. change (104 =? 100) with false. cbv iota. destruct (flat_map words ps); reflexivity.
Qed.
Lemma scan_v : forall ps k r rest, Forall piece_ok ps -> process_options (flat_map words ps ++ (45 :: ds k ++ 118 :: r) :: rest) = inr LVersion.
Proof.
  intros ps k r rest F. unfold process_options. rewrite scan_pieces by exact F. destruct (not_dash k 118 r ltac:(auto)) as [N1 N2]. rewrite scan_option by assumption. rewrite word_ds. cbn [word_options].
  change (with_arg 118) with false. change (without_arg 118) with true. change (118 =? 104) with false. change (118 =? 100) with false. cbv iota. destruct (flat_map words ps); reflexivity.
Qed.

Lemma names_iff : forall w c, get_command_id w = Some c <-> names w c.
Proof.
  intros w c. unfold get_command_id, command_list. cbn [find fst snd].
  repeat match goal with |- context [beqb ?a w] => let E := fresh in destruct (beqb a w) eqn:E; [apply beqb_eq in E; subst w; cbn [option_map snd]; destruct c; cbn [names]; split; intros Q; try reflexivity; try congruence; discriminate Q|] end.
  cbn [option_map]. split; [discriminate|]. intros Q. exfalso. destruct c; cbn [names] in Q; subst w; match goal with H : beqb ?a ?a = false |- _ => rewrite beqb_true in H; discriminate H end.
Qed.

Lemma written_scan : forall ps more o, Forall piece_ok ps -> scan_words (written ps more) o [] = inl (fold_left step ps o, operands ps more).
Proof.
  intros ps more o F. unfold written, operands. rewrite scan_pieces by exact F. destruct more as [l|]; [|rewrite app_nil_r; reflexivity]. cbn. reflexivity.
Qed.
Lemma empty_pieces : forall ps more, written ps more = [] -> ps = [] /\ more = None.
Proof.
  intros ps more H. unfold written in H. apply app_eq_nil in H. destruct H as [H1 H2]. destruct more; [discriminate H2|]. split; [|reflexivity].
  destruct ps as [|p ps]; [reflexivity|]. cbn [flat_map] in H1. apply app_eq_nil in H1. destruct H1 as [H1 _]. destruct p; discriminate H1.
Qed.

Lemma options_exact : forall args o c, process_options args = inl (o, c) <-> asks_for args o c.
Proof.
  intros args o c. split.
  - intros H. destruct (line_cases _ args (Nat.le_refl _)) as (ps & F & D).
    assert (W : exists more, args = written ps more).
    { destruct D as [->|[(l & ->)|[(k & x & r & rest & Hc & ->)|[(k & x & r & rest & Q & Q2 & ->)|(k & x & T & ->)]]]].
      - exists None. unfold written. rewrite app_nil_r. reflexivity.
      - exists (Some l). reflexivity.
      - exfalso. destruct Hc as [-> | ->]; [rewrite scan_h in H by exact F|rewrite scan_v in H by exact F]; discriminate H.
      - exfalso. rewrite scan_unknown in H by assumption. discriminate H.
      - exfalso. rewrite scan_lacking in H by assumption. discriminate H. }
    destruct W as [more ->]. unfold process_options in H. rewrite written_scan in H by exact F.
    assert (NE : match written ps more with [] => True | _ => match operands ps more with [] => False | w :: _ => match get_command_id w with Some c' => inl (fold_left step ps no_options, c') = inl (o, c) :> (options * command) + leaving | None => False end end end).
    { destruct (written ps more); [exact Logic.I|]. destruct (operands ps more) as [|w rest]; [discriminate H|]. destruct (get_command_id w); [exact H|discriminate H]. }
    destruct (written ps more) as [|x y] eqn:E; [discriminate H|]. destruct (operands ps more) as [|w rest] eqn:Eo; [destruct NE|]. destruct (get_command_id w) as [c'|] eqn:Ec; [|destruct NE].
    injection NE as Eo' ->. apply names_iff in Ec. destruct (says_pieces ps no_options F) as (S1 & S2 & S3 & S4 & S5 & S6). rewrite Eo' in *.
    exists ps, more, w, rest. split; [exact F|]. split; [symmetry; exact E|]. split; [exact Eo|]. split; [exact Ec|]. split; [exact S1|]. split; [exact S2|]. split; [exact S3|]. split; [exact S4|]. split; [exact S5|].
    destruct (given 112 ps); [apply port_means_iff; exact S6|exact S6].
  - intros (ps & more & w & rest & F & -> & Eo & Nw & S1 & S2 & S3 & S4 & S5 & S6). unfold process_options. rewrite written_scan by exact F. rewrite Eo. apply names_iff in Nw. rewrite Nw.
    assert (NE : written ps more <> []) by (intros Q; apply empty_pieces in Q; destruct Q as [-> ->]; discriminate Eo).
    destruct (written ps more); [congruence|]. do 2 f_equal. destruct (says_pieces ps no_options F) as (R1 & R2 & R3 & R4 & R5 & R6).
    assert (S6' : op_port o = match given 112 ps with Some a => to_uint (strtol a) | None => 0 end) by (destruct (given 112 ps); [apply port_means_iff; exact S6|exact S6]).
    destruct (fold_left step ps no_options) as [x1 x2 x3 x4 x5 x6], o as [y1 y2 y3 y4 y5 y6]. cbn [op_verbose op_config op_in op_out op_port op_address no_options orb] in *. unfold or_empty in *. congruence.
Qed.

Lemma options_end : forall args l, process_options args = inr l <-> stops args l.
Proof.
  assert (NC : forall ps more, Forall piece_ok ps -> written ps more <> [] -> (forall w rest c, operands ps more = w :: rest -> ~ names w c) -> process_options (written ps more) = inr LNoCommand).
  { intros ps more F NE Q. unfold process_options. rewrite written_scan by exact F. destruct (written ps more); [congruence|]. destruct (operands ps more) as [|w rest] eqn:Eo; [reflexivity|].
    destruct (get_command_id w) as [c|] eqn:Ec; [|reflexivity]. apply names_iff in Ec. destruct (Q w rest c eq_refl Ec). }
  intros args l. split.
  - intros H. destruct (line_cases _ args (Nat.le_refl _)) as (ps & F & D).
    assert (K : forall more, args = written ps more -> stops args l).
    { intros more E. destruct args as [|a args]; [injection H as <-; reflexivity|]. assert (NE : written ps more <> []) by congruence. rewrite E in H.
      assert (Q : forall w rest c, operands ps more = w :: rest -> ~ names w c).
      { intros w rest c Eo Nw. unfold process_options in H. rewrite written_scan, Eo in H by exact F. apply names_iff in Nw. rewrite Nw in H. destruct (written ps more); [congruence|discriminate H]. }
      rewrite (NC ps more F NE Q) in H. injection H as <-. split; [discriminate|]. exists ps, more. auto. }
    destruct D as [E|[(x & E)|[(k & x & r & rest & Hc & E)|[(k & x & r & rest & Q & Q2 & E)|(k & x & T & E)]]]].
    + apply (K None). unfold written. rewrite app_nil_r. exact E.
    + apply (K (Some x)). exact E.
    + destruct Hc as [-> | ->]; subst args; [rewrite scan_h in H by exact F|rewrite scan_v in H by exact F]; injection H as <-; exists ps, k, r, rest; auto.
    + subst args. rewrite scan_unknown in H by assumption. injection H as <-. exists ps. split; [exact F|]. left. exists k, x, r, rest. auto.
    + subst args. rewrite scan_lacking in H by assumption. injection H as <-. exists ps. split; [exact F|]. right. exists k, x. auto.
  - destruct l; cbn [stops].
    + intros (ps & n & r & rest & F & ->). apply scan_h. exact F.
    + intros (ps & n & r & rest & F & ->). apply scan_v. exact F.
    + intros (ps & F & [(n & c & r & rest & U & N2 & ->)|(n & c & T & ->)]); [apply scan_unknown; assumption|apply scan_lacking; assumption].
    + intros ->. reflexivity.
    + intros (NE & ps & more & F & -> & Q). apply NC; assumption.
Qed.

(** *** The texts of the options are words or ends of words *)
Lemma given_text : forall (Q : bytes -> Prop) c ps a, (forall x y, Q (x ++ y) -> Q y) -> Forall Q (flat_map words ps) -> given c ps = Some a -> Q a.
Proof.
  intros Q c ps a SUF. induction ps as [|p ps IH]; [discriminate|]. cbn [flat_map given]. intros F E. apply Forall_app in F. destruct F as [F1 F2]. destruct (given c ps) as [b|]; [injection E as ->; exact (IH F2 eq_refl)|].
  destruct p as [n|n c' b|n c' b|w]; try discriminate; destruct (c =? c'); try discriminate; injection E as ->; cbn [words] in F1.
  - inversion F1 as [|? ? F _]; subst. apply (SUF (45 :: ds n ++ [c'])). cbn [app]. rewrite <- app_assoc. exact F.
  - inversion F1 as [|? ? _ F]; subst. inversion F; assumption.
Qed.
Lemma asks_texts : forall args o c, Forall cstr_ok args -> asks_for args o c -> cstr_ok (op_address o) /\ cstr_ok (op_in o) /\ cstr_ok (op_out o).
Proof.
  intros args o c A (ps & more & w & rest & F & -> & _ & _ & _ & _ & E1 & E2 & E3 & _). unfold written in A. apply Forall_app in A. destruct A as [A _].
  assert (SUF : forall x y, cstr_ok (x ++ y) -> cstr_ok y) by (intros x y Q; apply Forall_app in Q; apply Q).
  assert (G : forall k, cstr_ok (or_empty (given k ps))) by (intros k; destruct (given k ps) as [a|] eqn:E; [exact (given_text _ _ _ _ SUF A E)|constructor]).
  rewrite E1, E2, E3. auto.
Qed.
