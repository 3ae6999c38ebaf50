(** Proofs for C137. *)
From Coq Require Import ZifyBool ZifyNat ZifyN.
From Verif Require Import Base PBase MSerialize SSerialize MWire SWire PWire2 PWire3 SWireText.
From Verif Require PEnrolLog.
Open Scope N_scope.

Lemma digits_some : forall f n acc, acc <> [] -> dec_digits_aux f n acc <> [].
Proof.
  induction f as [|f IH]; intros n acc H; cbn [dec_digits_aux]; [exact H|]. cbv zeta.
  destruct (n <? 10); [discriminate|]. apply IH. discriminate.
Qed.
Lemma decimal_digits n : decimal_of n (dec_digits n).
Proof.
  split; [|split; [apply PEnrolLog.dec_digits_dec|apply PEnrolLog.dec_digits_value]].
  unfold dec_digits. cbn [dec_digits_aux]. cbv zeta. destruct (n <? 10); [discriminate|]. apply digits_some. discriminate.
Qed.

Definition pct_same (c : N) : bool := beqb [37; hex_upper (c / 16); hex_upper (c mod 16)] (pct_char c).
Lemma pct_all : forallb pct_same (map N.of_nat (seq 0 256)) = true.
Proof. vm_compute. reflexivity. Qed.
Lemma pct_one c : c < 256 -> [37; hex_upper (c / 16); hex_upper (c mod 16)] = pct_char c.
Proof.
  intro H. apply beqb_eq. change (pct_same c = true). pose proof pct_all as A. rewrite forallb_forall in A. apply A.
  apply in_map_iff. exists (N.to_nat c). split; [lia|]. apply in_seq. lia.
Qed.
Lemma encoded_escaped : forall p, Forall path_char p -> escaped p (flat_map encode_char p).
Proof.
  intros p H. induction H as [|c p C _ IH]; cbn [flat_map]; [constructor|]. destruct C as [R _]. unfold encode_char.
  destruct ((existsb (N.eqb c) [32; 43; 13; 10; 39; 44; 59]) || (128 <=? c)) eqn:E; cbn [existsb] in E.
  - rewrite pct_one by lia. apply escaped_coded; [unfold must_encode; lia|exact IH].
  - cbn [app]. apply escaped_kept; [unfold must_encode; lia|exact IH].
Qed.

Lemma host_line_text host port : host_text host port (host_line host port).
Proof.
  unfold host_text, host_line. destruct (Z.eqb_spec port 443) as [E|E]; [left; split; [exact E|reflexivity]|]. right. split; [exact E|].
  exists (dec_digits (Z.to_N port)). split; [apply decimal_digits|]. destruct (existsb (N.eqb 58) host) eqn:X.
  - left. apply existsb_exists in X. destruct X as (c & I & Q). apply N.eqb_eq in Q. subst c. split; [exact I|].
    change (s2b "[") with [91]. change (s2b "]") with [93]. change (s2b ":") with [58]. rewrite <- !app_assoc. reflexivity.
  - right. split; [|reflexivity]. intro I. assert (T : existsb (N.eqb 58) host = true) by (apply existsb_exists; exists 58; split; [exact I|reflexivity]). congruence.
Qed.

Lemma digits_upto_nul n : upto_nul (dec_digits n) = dec_digits n.
Proof. apply upto_nul_plain. eapply Forall_impl; [|apply PEnrolLog.dec_digits_dec]. unfold is_dec. intros c H. lia. Qed.
Lemma plain_upto v : plain_value v -> upto_nul v = v.
Proof. intros [H _]. apply value_sendable in H. apply H. Qed.

Lemma request_text_of host port path ctype body : destination_ok host port -> plain_path path -> type_ok ctype ->
  exists target where_to len, escaped path target /\ host_text host port where_to /\ decimal_of (blen body) len /\
    client_request host port path ctype body = post_text target where_to len ctype body.
Proof.
  intros D (_ & P & _) T. exists (flat_map encode_char path), (host_line host port), (dec_digits (blen body)).
  split; [apply encoded_escaped, P|]. split; [apply host_line_text|]. split; [apply decimal_digits|].
  unfold client_request, encode_url. rewrite (path_nul _ P). rewrite (client_lines _ _ _ _ D T).
  pose proof (host_line_ok host port D) as [W _]. destruct T as [C _].
  unfold write_headers, sent_lines, post_text. cbn [flat_map]. unfold write_header. cbn [fst snd].
  rewrite digits_upto_nul, (plain_upto _ C), (plain_upto _ W).
  change CRLF with [13; 10].
  repeat match goal with |- context [upto_nul (s2b ?x)] => change (upto_nul (s2b x)) with (s2b x) end.
  change (s2b "Accept: */*") with (s2b "Accept" ++ s2b ": " ++ s2b "*/*").
  change (s2b "Connection: close") with (s2b "Connection" ++ s2b ": " ++ s2b "close").
  change (s2b "Content-Length: ") with (s2b "Content-Length" ++ s2b ": ").
  change (s2b "Content-Type: ") with (s2b "Content-Type" ++ s2b ": ").
  change (s2b "Host: ") with (s2b "Host" ++ s2b ": ").
  change (s2b "User-Agent: cpp-httplib/0.14.3") with (s2b "User-Agent" ++ s2b ": " ++ s2b "cpp-httplib/0.14.3").
  rewrite <- !app_assoc. rewrite ?app_nil_l. reflexivity.
Qed.
