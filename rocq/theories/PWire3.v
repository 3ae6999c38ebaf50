(** A request of the client arrives at the handlers as it was sent. *)
From Coq Require Import ZifyBool ZifyNat ZifyN Sorted.
From Verif Require Import Base PBase MSerialize MHttp SHttp PHttp MTls MWire SWire PWire PWire2.
Open Scope N_scope.

(** ** Numbers *)

Definition digit (c : N) : Prop := 48 <= c <= 57.
Lemma digits_aux_digit : forall f n acc, Forall digit acc -> Forall digit (dec_digits_aux f n acc).
Proof.
  induction f as [|f IH]; intros n acc H; cbn [dec_digits_aux]; [exact H|]. cbv zeta.
  assert (Forall digit ((48 + n mod 10) :: acc)).
  { constructor; [|exact H]. unfold digit. pose proof (N.mod_lt n 10 ltac:(lia)) as L. remember (n mod 10) as r. lia. }
  destruct (n <? 10); [assumption|]. apply IH. assumption.
Qed.
Lemma digits_digit n : Forall digit (dec_digits n).
Proof. apply digits_aux_digit. constructor. Qed.
Lemma digit_value_digit c : digit c -> digit_value 10 c = Some (c - 48).
Proof.
  unfold digit, digit_value, hex_value. intros [A B]. destruct (N.leb_spec 48 c); [|lia]. destruct (N.leb_spec c 57); [|lia]. cbn [andb].
  destruct (N.ltb_spec (c - 48) 10); [reflexivity|lia].
Qed.
Lemma number_aux : forall f n acc, n < 2 ^ N.of_nat f -> Forall digit acc ->
  number_value 10 0 (dec_digits_aux f n acc) = number_value 10 n acc.
Proof.
  induction f as [|f IH]; intros n acc H F; cbn [dec_digits_aux].
  { change (2 ^ N.of_nat 0) with 1 in H. replace n with 0 by lia. reflexivity. }
  cbv zeta. rewrite Nat2N.inj_succ, N.pow_succ_r' in H.
  assert (D : digit (48 + n mod 10)) by (unfold digit; pose proof (N.mod_lt n 10 ltac:(lia)) as L; remember (n mod 10) as r; lia).
  destruct (n <? 10) eqn:E.
  - cbn [number_value]. rewrite digit_value_digit by exact D. rewrite N.mod_small by lia. f_equal. lia.
  - assert (L : n / 10 < 2 ^ N.of_nat f) by (apply N.div_lt_upper_bound; lia).
    rewrite (IH _ _ L) by (constructor; assumption). cbn [number_value]. rewrite digit_value_digit by exact D. f_equal.
    pose proof (N.div_mod n 10 ltac:(lia)) as Q. remember (n / 10) as q. remember (n mod 10) as r. lia.
Qed.
Lemma log2_bound n : n < 2 ^ N.of_nat (S (N.to_nat (N.log2 n))).
Proof. rewrite Nat2N.inj_succ, N2Nat.id. destruct (N.eq_dec n 0) as [->|Q]; [reflexivity|]. apply N.log2_spec. lia. Qed.
Lemma number_digits n : number_value 10 0 (dec_digits n) = n.
Proof. unfold dec_digits. rewrite number_aux by (apply log2_bound || constructor). reflexivity. Qed.
Lemma digits_aux_length : forall f n acc, (List.length (dec_digits_aux f n acc) <= f + List.length acc)%nat.
Proof. induction f as [|f IH]; intros n acc; cbn [dec_digits_aux]; [lia|]. cbv zeta. destruct (n <? 10); cbn [List.length]; [lia|]. specialize (IH (n / 10) ((48 + n mod 10) :: acc)). cbn [List.length] in IH. lia. Qed.
Lemma digits_aux_nonempty : forall f n acc, acc <> [] -> dec_digits_aux f n acc <> [].
Proof. induction f as [|f IH]; intros n acc H; cbn [dec_digits_aux]; [exact H|]. cbv zeta. destruct (n <? 10); [discriminate|]. apply IH. discriminate. Qed.
Lemma digits_cons n : exists c r, dec_digits n = c :: r /\ digit c.
Proof.
  pose proof (digits_digit n) as F. destruct (dec_digits n) as [|c r] eqn:E.
  - exfalso. unfold dec_digits in E. cbn [dec_digits_aux] in E. cbv zeta in E. destruct (n <? 10); [discriminate|]. apply digits_aux_nonempty in E; [exact E|discriminate].
  - exists c, r. split; [reflexivity|]. inversion F. assumption.
Qed.
Lemma digits_length n k : n < 2 ^ k -> 0 < k -> blen (dec_digits n) <= k.
Proof.
  intros H K. unfold dec_digits, blen. pose proof (digits_aux_length (S (N.to_nat (N.log2 n))) n []) as L. cbn [List.length] in L.
  assert (N.log2 n < k). { destruct (N.eq_dec n 0) as [->|Q]; [exact K|]. apply N.log2_lt_pow2; lia. } lia.
Qed.
Lemma strtoul_digits n : n <= ULONG_MAX -> strtoul 10 (dec_digits n) = (n, true).
Proof.
  intro H. unfold strtoul. destruct (digits_cons n) as (c & r & E & D). pose proof (number_digits n) as V. rewrite E in *.
  cbn [skip_white]. unfold digit in D. replace (white c) with false by (unfold white; lia).
  cbn iota. replace (c =? 45) with false by lia. replace (c =? 43) with false by lia. cbn iota.
  assert (S : (match r with x :: r0 => if (10 =? 16) && (c =? 48) && ((x =? 120) || (x =? 88)) && starts_number 16 r0 then r0 else c :: r | [] => c :: r end) = c :: r) by (destruct r; reflexivity).
  rewrite S. clear S. cbn [starts_number]. rewrite digit_value_digit by exact D. cbv zeta. rewrite V.
  replace (ULONG_MAX <? n) with false by lia. reflexivity.
Qed.
Lemma digit_plain c : digit c -> plain_wire c /\ ~ blank_char c.
Proof. unfold digit, plain_wire, blank_char. lia. Qed.
Lemma digits_plain n : plain_value (dec_digits n).
Proof.
  pose proof (digits_digit n) as F. destruct (digits_cons n) as (c & r & E & D). split; [|split].
  - eapply Forall_impl; [|exact F]. intros a A. apply digit_plain, A.
  - exists c, r. split; [exact E|apply digit_plain, D].
  - destruct (exists_last (l := dec_digits n) ltac:(rewrite E; discriminate)) as (r2 & c2 & E2). exists r2, c2. split; [exact E2|].
    rewrite E2 in F. apply Forall_app in F as [_ F]. inversion F as [|x y H H1]. apply digit_plain, H.
Qed.

(** ** Paths *)

Definition hex_back (c : N) : bool :=
  negb (hex_upper (c / 16) =? 117) && match hex_number 0 [hex_upper (c / 16); hex_upper (c mod 16)] with Some v => v =? c | None => false end.
Lemma hex_pair c : c < 256 -> hex_upper (c / 16) <> 117 /\ hex_number 0 [hex_upper (c / 16); hex_upper (c mod 16)] = Some c.
Proof.
  intro H. assert (A : hex_back c = true) by (apply (all_range 256 hex_back); [vm_compute; reflexivity|exact H]).
  unfold hex_back in A. apply andb_prop in A as [A B]. apply Bool.negb_true_iff in A. apply N.eqb_neq in A. split; [exact A|].
  destruct (hex_number 0 _) as [v|]; [|discriminate]. apply N.eqb_eq in B. subst v. reflexivity.
Qed.
Lemma encode_cases c : path_char c -> (encode_char c = [c] /\ c <> 32) \/ encode_char c = [37; hex_upper (c / 16); hex_upper (c mod 16)].
Proof. intros [R _]. unfold encode_char. destruct (_ || _) eqn:E; [right; reflexivity|left]. split; [reflexivity|]. intros ->. discriminate E. Qed.
Lemma path_nul p : Forall path_char p -> upto_nul p = p.
Proof. intro F. apply upto_nul_plain. eapply Forall_impl; [|exact F]. unfold path_char. intros a [A _]. lia. Qed.
Lemma decode_pct c r : c < 256 -> decode_url (37 :: hex_upper (c / 16) :: hex_upper (c mod 16) :: r) = c :: decode_url r.
Proof.
  intro H. destruct (hex_pair c H) as [A B]. cbn [decode_url]. change (37 =? 37) with true. cbn iota.
  destruct (N.eqb_spec (hex_upper (c / 16)) 117) as [E|_]; [contradiction|]. rewrite B. reflexivity.
Qed.
Lemma decode_encode p : Forall path_char p -> decode_url (flat_map encode_char p) = p.
Proof.
  induction 1 as [|c p A F IH]; [reflexivity|]. cbn [flat_map]. destruct (encode_cases c A) as [[-> _]| ->]; cbn [app].
  - cbn [decode_url]. destruct A as [R N]. cbn [In] in N. destruct (N.eqb_spec c 37) as [E|_]; [exfalso; apply N; lia|]. f_equal. exact IH.
  - rewrite decode_pct by (destruct A as [R _]; lia). f_equal. exact IH.
Qed.
Definition hex_char (c : N) : Prop := digit c \/ 65 <= c <= 70.
Lemma hex_upper_char n : n < 16 -> hex_char (hex_upper n).
Proof. unfold hex_upper, hex_char, digit. intro H. destruct (N.ltb_spec n 10); lia. Qed.
Lemma encoded_chars p : Forall path_char p -> Forall (fun c => (path_char c /\ c <> 32) \/ c = 37 \/ hex_char c) (flat_map encode_char p).
Proof.
  induction 1 as [|c p A F IH]; [constructor|]. cbn [flat_map]. apply Forall_app. split; [|exact IH]. destruct (encode_cases c A) as [[-> E]| ->].
  - constructor; [left; split; assumption|constructor].
  - destruct A as [R _]. constructor; [right; left; reflexivity|]. constructor; [right; right; apply hex_upper_char, N.div_lt_upper_bound; lia|].
    constructor; [right; right; apply hex_upper_char, N.mod_lt; lia|constructor].
Qed.
Lemma encoded_length p : (List.length (flat_map encode_char p) <= 3 * List.length p)%nat.
Proof. induction p as [|c p IH]; [cbn; lia|]. cbn [flat_map]. rewrite app_length. unfold encode_char at 1. destruct (_ || _); cbn [List.length]; lia. Qed.
Lemma encoded_nonempty p : p <> [] -> flat_map encode_char p <> [].
Proof. destruct p as [|c p]; [contradiction|]. intros _. cbn [flat_map]. unfold encode_char at 1. destruct (_ || _); discriminate. Qed.

(** ** The request line *)

Lemma parts_cut : forall p m d acc r, Forall (fun c => c <> d) p -> parts (S (S m)) d acc (p ++ d :: r) = (rev acc ++ p) :: parts (S m) d [] r.
Proof.
  induction p as [|c p IH]; intros m d acc r F; cbn [app parts].
  - rewrite N.eqb_refl, app_nil_r. reflexivity.
  - apply Forall_cons_iff in F as [A F]. destruct (N.eqb_spec c d); [contradiction|]. rewrite IH by exact F. cbn [rev]. rewrite <- app_assoc. reflexivity.
Qed.
Lemma parts_whole : forall s m d acc, Forall (fun c => c <> d) s -> parts m d acc s = [rev acc ++ s].
Proof.
  induction s as [|c s IH]; intros m d acc F; cbn [parts]; [rewrite app_nil_r; reflexivity|].
  apply Forall_cons_iff in F as [A F]. destruct (N.eqb_spec c d); [contradiction|].
  assert (E : parts m d (c :: acc) s = [rev acc ++ c :: s]) by (rewrite IH by exact F; cbn [rev]; rewrite <- app_assoc; reflexivity).
  destruct m as [|[|m]]; exact E.
Qed.
Lemma trim_plain s : Forall (fun c => ~ blank_char c) s -> trim s = s.
Proof.
  intro F. destruct s as [|c r]; [reflexivity|]. unfold trim. rewrite trim_left_keep by (inversion F; assumption).
  destruct (exists_last (l := c :: r) ltac:(discriminate)) as (a & b & E). rewrite E in *. apply trim_right_keep.
  apply Forall_app in F as [_ F]. inversion F. assumption.
Qed.
Lemma enc_no (x : N) p : Forall path_char p -> (x = 32 \/ x = 9 \/ x = 35 \/ x = 63 \/ x = 0 \/ x = 10 \/ x = 13) -> Forall (fun c => c <> x) (flat_map encode_char p).
Proof.
  intros F H. induction F as [|c p A F IH]; [constructor|]. cbn [flat_map]. apply Forall_app. split; [|exact IH].
  destruct (encode_cases c A) as [[E E1]| E]; rewrite E.
  - constructor; [|constructor]. intros ->. destruct A as [R N]. cbn [In] in N. destruct H as [->|[->|[->|[->|[->|[->| ->]]]]]]; try (apply N; lia); try lia; try discriminate E.
  - destruct A as [R _]. pose proof (hex_upper_char (c / 16) ltac:(apply N.div_lt_upper_bound; lia)) as H1. pose proof (hex_upper_char (c mod 16) ltac:(apply N.mod_lt; lia)) as H2.
    unfold hex_char, digit in H1, H2. remember (hex_upper (c / 16)) as h1. remember (hex_upper (c mod 16)) as h2. clear Heqh1 Heqh2.
    repeat constructor; lia.
Qed.
Definition request_text (path : bytes) : bytes := s2b "POST " ++ encode_url path ++ s2b " HTTP/1.1".
Lemma cut_fragment_plain s : Forall (fun c => c <> 35) s -> cut_fragment s = s.
Proof. induction 1 as [|c s A F IH]; [reflexivity|]. cbn [cut_fragment]. destruct (N.eqb_spec c 35); [contradiction|]. f_equal. exact IH. Qed.
Lemma Forall_and_not (P Q : N -> Prop) l : Forall P l -> Forall Q l -> Forall (fun c => P c /\ Q c) l.
Proof. induction 1 as [|c l A F IH]; intro G; [constructor|]. inversion G. constructor; auto. Qed.
Lemma parse_request path : plain_path path -> parse_request_line (request_text path ++ CRLF) = mk_line true (s2b "POST") path (s2b "HTTP/1.1").
Proof.
  intros (P0 & P & _). unfold parse_request_line. rewrite crlf_app, crlf_cut. cbn [negb].
  assert (E : encode_url path = flat_map encode_char path) by (unfold encode_url; rewrite path_nul by exact P; reflexivity).
  pose proof (enc_no 32 path P ltac:(tauto)) as N32. pose proof (enc_no 9 path P ltac:(tauto)) as N9. pose proof (enc_no 35 path P ltac:(tauto)) as N35. pose proof (enc_no 63 path P ltac:(tauto)) as N63.
  pose proof (decode_encode path P) as DE. pose proof (encoded_nonempty path P0) as NE.
  remember (flat_map encode_char path) as enc. clear Heqenc.
  assert (NB : Forall (fun c => ~ blank_char c) enc).
  { eapply Forall_impl; [|exact (Forall_and_not _ _ _ N32 N9)]. cbn beta. unfold blank_char. intuition. }
  assert (SP : split (S (S (List.length (request_text path ++ CRLF)))) 32 (request_text path) = [s2b "POST"; enc; s2b "HTTP/1.1"]).
  { unfold split, request_text. rewrite E. change (s2b "POST " ++ enc ++ s2b " HTTP/1.1") with (s2b "POST" ++ 32 :: (enc ++ 32 :: s2b "HTTP/1.1")).
    assert (L : exists n, List.length ((s2b "POST" ++ 32 :: enc ++ 32 :: s2b "HTTP/1.1") ++ CRLF) = S n) by (eexists; cbn [s2b app List.length]; reflexivity).
    destruct L as (n & ->). rewrite parts_cut by (repeat constructor; discriminate). rewrite parts_cut by exact N32. rewrite parts_whole by (repeat constructor; discriminate).
    cbn [rev app map]. rewrite (trim_plain enc NB). change (trim (s2b "POST")) with (s2b "POST"). change (trim (s2b "HTTP/1.1")) with (s2b "HTTP/1.1").
    cbn [filter]. apply beqb_neq in NE. rewrite NE. reflexivity. }
  rewrite SP. cbn [List.length nth]. change (Nat.eqb 3 3) with true. change (existsb (beqb (s2b "POST")) methods) with true. change (beqb (s2b "HTTP/1.1") (s2b "HTTP/1.1")) with true. cbn [negb orb].
  rewrite cut_fragment_plain by exact N35. unfold split. rewrite parts_whole by exact N63. cbn [rev app map]. rewrite trim_plain by exact NB. cbn [filter].
  apply beqb_neq in NE. rewrite NE. cbn [negb nth]. rewrite DE. reflexivity.
Qed.

(** ** The lines of a request *)

Lemma prefix_iff p s : has_prefix p s = true <-> is_prefix p s.
Proof.
  unfold has_prefix, is_prefix. rewrite beqb_eq. split.
  - intro H. exists (skipn (List.length p) s). rewrite <- H at 1. symmetry. apply firstn_skipn.
  - intros (r & ->). rewrite firstn_app, firstn_all, Nat.sub_diag. cbn [firstn]. apply app_nil_r.
Qed.
Lemma plain_value_app a b : Forall plain_wire a -> plain_value b -> (exists c r, a ++ b = c :: r /\ ~ blank_char c) -> plain_value (a ++ b).
Proof.
  intros A (F & _ & (r & c & E & B)) S. split; [apply Forall_app; split; assumption|]. split; [exact S|].
  exists (a ++ r), c. split; [rewrite E; apply app_assoc|exact B].
Qed.
Lemma host_line_ok host port : destination_ok host port -> plain_value (host_line host port) /\ blen (host_line host port) <= 8100.
Proof.
  intros (V & L & P). unfold host_line. destruct (port =? 443)%Z; [split; [exact V|lia]|].
  destruct V as (F & (c & r & E & B) & T).
  assert (D : blen (dec_digits (Z.to_N port)) <= 16) by (apply digits_length; [change (2 ^ 16) with 65536; lia|reflexivity]).
  assert (PV : plain_value (s2b ":" ++ dec_digits (Z.to_N port))).
  { apply plain_value_app; [repeat constructor; discriminate|apply digits_plain|]. exists 58, (dec_digits (Z.to_N port)). split; [reflexivity|unfold blank_char; lia]. }
  destruct (existsb (N.eqb 58) host).
  - split.
    + apply plain_value_app; [apply Forall_app; split; [repeat constructor; discriminate|apply Forall_app; split; [exact F|repeat constructor; discriminate]]|exact PV|].
      exists 91. eexists. split; [reflexivity|unfold blank_char; lia].
    + rewrite !blen_app. change (blen (s2b "[")) with 1. change (blen (s2b "]")) with 1. change (blen (s2b ":")) with 1. lia.
  - split.
    + apply plain_value_app; [exact F|exact PV|]. rewrite E. eexists _, _. split; [reflexivity|exact B].
    + rewrite !blen_app. change (blen (s2b ":")) with 1. lia.
Qed.
Definition plain_wireb (c : N) : bool := negb (existsb (N.eqb c) [0; 10; 13; 37]).
Lemma plain_wireb_ok c : plain_wireb c = true -> plain_wire c.
Proof. unfold plain_wireb, plain_wire. cbn [existsb]. lia. Qed.
Definition plain_nameb (k : bytes) : bool := negb (beqb k []) && forallb (fun c => plain_wireb c && negb (c =? 58)) k.
Lemma plain_nameb_ok k : plain_nameb k = true -> plain_name k.
Proof.
  unfold plain_nameb, plain_name. intro H. apply andb_prop in H as [A B]. apply Bool.negb_true_iff, beqb_neq in A. split; [exact A|].
  rewrite forallb_forall in B. apply Forall_forall. intros c I. specialize (B c I). apply andb_prop in B as [B C]. split; [apply plain_wireb_ok, B|lia].
Qed.
Definition plain_valueb (v : bytes) : bool :=
  forallb plain_wireb v && match v with c :: _ => negb (space_or_tab c) | [] => false end && match rev v with c :: _ => negb (space_or_tab c) | [] => false end.
Lemma plain_valueb_ok v : plain_valueb v = true -> plain_value v.
Proof.
  unfold plain_valueb. intro H. apply andb_prop in H as [H C]. apply andb_prop in H as [A B]. split; [|split].
  - rewrite forallb_forall in A. apply Forall_forall. intros c I. apply plain_wireb_ok, A, I.
  - destruct v as [|c r]; [discriminate|]. exists c, r. split; [reflexivity|]. intro Q. apply blank_iff in Q. rewrite Q in B. discriminate.
  - destruct (rev v) as [|c r] eqn:E; [discriminate|]. exists (rev r), c. split; [rewrite <- (rev_involutive v), E; reflexivity|]. intro Q. apply blank_iff in Q. rewrite Q in C. discriminate.
Qed.
Lemma plain_named k v : plain_nameb k = true -> plain_value v -> blen k + blen v + 4 <= 8192 -> plain_line (k, v).
Proof. intros A B C. split; [apply plain_nameb_ok, A|]. split; [exact B|exact C]. Qed.

Definition body_ok (body : bytes) : Prop := blen body <= SIZE_MAX.
Lemma sent_lines_ok w ctype len : plain_value w -> blen w <= 8100 -> plain_value ctype -> blen ctype <= 8000 -> len <= SIZE_MAX -> Forall plain_line (sent_lines w ctype len).
Proof.
  intros W LW C LC LB. assert (D : blen (dec_digits len) <= 64) by (apply digits_length; [change (2 ^ 64) with 18446744073709551616; unfold SIZE_MAX in LB; lia|reflexivity]).
  unfold sent_lines. repeat (constructor; [apply plain_named; [reflexivity|try exact W; try exact C; try (apply digits_plain); apply plain_valueb_ok; reflexivity|]|]); [..|constructor];
    match goal with |- blen ?k + _ + 4 <= _ => let n := eval vm_compute in (blen k) in change (blen k) with n end; try lia;
    match goal with |- _ + blen ?k + 4 <= _ => let n := eval vm_compute in (blen k) in change (blen k) with n end; lia.
Qed.
Lemma add_sendable k v hs : has_crlf k = false -> sendable v -> add_header k v hs = mm_emplace k v hs.
Proof. intros A B. apply crlf_sendable in B. unfold add_header. rewrite A, B. reflexivity. Qed.
Lemma plain_sendable v : plain_value v -> sendable v.
Proof. intro V. apply value_sendable, plain_value_chars, V. Qed.

Lemma to_text_port port : (0 <= port)%Z -> to_text port = dec_digits (Z.to_N port).
Proof. intro H. unfold to_text. replace (port <? 0)%Z with false by lia. rewrite Z.abs_eq by exact H. reflexivity. Qed.
Lemma client_lines host port ctype body : destination_ok host port -> type_ok ctype ->
  client_headers host port ctype body = sent_lines (host_line host port) ctype (blen body).
Proof.
  intros D (C & _). pose proof (host_line_ok host port D) as [W _]. destruct D as (_ & _ & P).
  assert (HW : (if (port =? 443)%Z then host else host_and_port host port) = host_line host port).
  { unfold host_line, host_and_port. rewrite to_text_port by lia. reflexivity. }
  unfold client_headers. rewrite HW. remember (host_line host port) as w. clear HW Heqw.
  pose proof (plain_value_nonempty ctype C) as CN. apply beqb_neq in CN. rewrite CN.
  rewrite (add_sendable _ ctype) by (reflexivity || apply plain_sendable, C).
  cbn [mm_emplace]. change (mm_has (s2b "Connection") [(s2b "Content-Type", ctype)]) with false. cbn iota.
  rewrite (add_sendable (s2b "Connection")) by (reflexivity || apply crlf_sendable; reflexivity).
  cbn [mm_emplace fst]. change (ci_lt (s2b "Connection") (s2b "Content-Type")) with true. cbn iota.
  match goal with |- context [mm_has (s2b "Host") ?l] => change (mm_has (s2b "Host") l) with false end. cbn iota.
  rewrite (add_sendable (s2b "Host")) by (reflexivity || apply plain_sendable, W).
  cbn [mm_emplace fst]. change (ci_lt (s2b "Host") (s2b "Connection")) with false. change (ci_lt (s2b "Host") (s2b "Content-Type")) with false. cbn iota.
  match goal with |- context [mm_has (s2b "Accept") ?l] => change (mm_has (s2b "Accept") l) with false end. cbn iota.
  rewrite (add_sendable (s2b "Accept")) by (reflexivity || apply crlf_sendable; reflexivity).
  cbn [mm_emplace fst]. change (ci_lt (s2b "Accept") (s2b "Connection")) with true. cbn iota.
  match goal with |- context [mm_has (s2b "User-Agent") ?l] => change (mm_has (s2b "User-Agent") l) with false end. cbn iota.
  rewrite (add_sendable (s2b "User-Agent")) by (reflexivity || apply crlf_sendable; reflexivity).
  cbn [mm_emplace fst]. repeat match goal with |- context [ci_lt ?a ?b] => let v := eval vm_compute in (ci_lt a b) in change (ci_lt a b) with v end. cbn iota.
  match goal with |- context [mm_has (s2b "Content-Type") ?l] => change (mm_has (s2b "Content-Type") l) with true end. cbn iota.
  match goal with |- context [mm_has (s2b "Content-Length") ?l] => change (mm_has (s2b "Content-Length") l) with false end. cbn iota.
  assert (G : forall v, sendable v -> add_header (s2b "Content-Length") v [(s2b "Accept", s2b "*/*"); (s2b "Connection", s2b "close"); (s2b "Content-Type", ctype); (s2b "Host", w); (s2b "User-Agent", USER_AGENT)]
    = [(s2b "Accept", s2b "*/*"); (s2b "Connection", s2b "close"); (s2b "Content-Length", v); (s2b "Content-Type", ctype); (s2b "Host", w); (s2b "User-Agent", USER_AGENT)]).
  { intros v S. rewrite add_sendable by (reflexivity || exact S). reflexivity. }
  destruct (beqb body []) eqn:B.
  - apply beqb_eq in B. subst body. rewrite G by (apply crlf_sendable; reflexivity). reflexivity.
  - rewrite G by (apply plain_sendable, digits_plain). reflexivity.
Qed.
