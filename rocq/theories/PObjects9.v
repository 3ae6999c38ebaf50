(** Memory failures do not turn a refusal into an acceptance; the MASA. *)
From Verif Require Import Base PBase MBase64 MSerialize MOs MVoucher MCrypto MRequest MObjects SObjects PObjects PObjects2 PObjects3 PObjects4 PObjects5 PObjects6 PObjects7 PObjects8 PRequest6.
Open Scope nat_scope.

Lemma parse_some : forall A k (v : option A) s a x s', parse k v s = (Some (a, x), s') -> v = Some a.
Proof. intros A k v s a x s' E. unfold parse in E. destruct v as [b|]; [|discriminate E]. destruct (ob_new s k) as [[y|] s1]; [|discriminate E]. injection E as -> _ _. reflexivity. Qed.

Ltac inv_do E :=
  match type of E with
  | obind ?e _ = Ok _ => let r := fresh "r" in let Q := fresh "Q" in destruct e as [r|] eqn:Q; [cbn [obind] in E|discriminate E]
  end.

Lemma stack_loop_sub : forall o certs s st acc l s', stack_loop o certs s st acc = Ok (Some l, s') ->
  exists full part, get_certificate_stack o certs = Some full /\ sub part full /\ l = acc ++ part.
Proof.
  intros o. induction certs as [|[arr fl] certs IH]; intros s st acc l s' E; cbn [stack_loop get_certificate_stack] in *.
  - injection E as <- _. exists [], []. split; [reflexivity|]. split; [constructor|]. rewrite app_nil_r. reflexivity.
  - destruct (parse KCert (d2i_x509 o arr) s) as [[[v x]|] s1] eqn:P.
    + rewrite (parse_some _ _ _ _ _ _ _ P). destruct (ob_call s1) as [z s2]. destruct (0 <? z)%Z.
      * inv_do E. destruct (IH _ _ _ _ _ E) as (full & part & F & S & ->). exists (v :: full), (v :: part). rewrite F. split; [reflexivity|]. split; [constructor; exact S|]. rewrite <- app_assoc. reflexivity.
      * destruct (IH _ _ _ _ _ E) as (full & part & F & S & ->). exists (v :: full), part. rewrite F. split; [reflexivity|]. split; [constructor; exact S|]. reflexivity.
    + inv_do E. discriminate E.
Qed.
Lemma get_stack_sub : forall o certs s l st s', get_stack o certs s = Ok (Some (l, st), s') -> exists full, get_certificate_stack o certs = Some full /\ sub l full.
Proof.
  intros o certs s l st s' E. unfold get_stack in E. destruct (ob_new s KStack) as [[x|] s1]; [|discriminate E]. inv_do E. destruct r as [[l'|] s2]; [|discriminate E]. injection E as <- <- <-.
  destruct (stack_loop_sub _ _ _ _ _ _ _ Q) as (full & part & F & S & ->). exists full. auto.
Qed.
Lemma opt_get_stack_sub : forall o certs s l st s', opt_get_stack o certs s = Ok (Some (l, st), s') -> exists full, opt_stack o certs = Some full /\ opt_sub l full.
Proof.
  intros o certs s l st s' E. unfold opt_get_stack, opt_stack in *. destruct certs as [certs|].
  - inv_do E. destruct r as [[[v x]|] s1]; [|discriminate E]. injection E as <- <- <-. destruct (get_stack_sub _ _ _ _ _ _ Q) as (full & F & S). rewrite F. exists (Some full). auto.
  - injection E as <- <- <-. exists None. split; [reflexivity|exact Logic.I].
Qed.
Lemma store_adds_true : forall o inn s store x acc v s', store_adds o inn s store x acc v = Ok (true, s') -> store_add o acc v = true.
Proof. intros o inn s store x acc v s' E. unfold store_adds in E. destruct (ob_call s) as [z s1]. destruct (store_add o acc v); [reflexivity|]. cbn [andb] in E. discriminate E. Qed.
Lemma store_loop_full : forall o inn entries s store ptrs acc l s', store_loop o inn entries s store ptrs acc = Ok (Some l, s') -> get_certificate_store o acc entries = Some l.
Proof.
  intros o inn. induction entries as [|[arr fl] entries IH]; intros s store ptrs acc l s' E; cbn [store_loop get_certificate_store] in *; [injection E as <- _; reflexivity|].
  assert (NF : forall s, obind (free_x509_store s (Some store) (Some ptrs)) (fun s => Ok (None (A := list (X509 o + CRL o)), s)) <> Ok (Some l, s')) by (intros s2 Q; destruct (free_x509_store s2 (Some store) (Some ptrs)); discriminate Q).
  destruct (fl =? CERTIFICATE_VALID)%Z; [|destruct (fl =? CERTIFICATE_CRL)%Z; [|destruct (NF _ E)]].
  - destruct (parse KCert (d2i_x509 o arr) s) as [[[v x]|] s1] eqn:P; [|destruct (NF _ E)]. rewrite (parse_some _ _ _ _ _ _ _ P). inv_do E. destruct r as [b s2]. destruct b; cbn [negb] in E; [|destruct (NF _ E)]. rewrite (store_adds_true _ _ _ _ _ _ _ _ Q).
    inv_do E. destruct r as [z s3]. destruct (z <? 0)%Z; [destruct (NF _ E)|]. exact (IH _ _ _ _ _ _ E).
  - destruct (parse KCrl (d2i_crl o arr) s) as [[[v x]|] s1] eqn:P; [|destruct (NF _ E)]. rewrite (parse_some _ _ _ _ _ _ _ P). inv_do E. destruct r as [b s2]. destruct b; cbn [negb] in E; [|destruct (NF _ E)]. rewrite (store_adds_true _ _ _ _ _ _ _ _ Q).
    inv_do E. destruct r as [z s3]. destruct (z <? 0)%Z; [destruct (NF _ E)|]. exact (IH _ _ _ _ _ _ E).
Qed.
Lemma opt_get_store_full : forall o inn store s l st pt s', opt_get_store o inn store s = Ok (Some (l, st, pt), s') -> opt_store o store = Some l.
Proof.
  intros o inn store s l st pt s' E. unfold opt_get_store, opt_store, get_store in *. destruct store as [es|]; [|injection E as <- <- <- <-; reflexivity].
  inv_do E. destruct r as [[[[v x] y]|] s1]; [|discriminate E]. injection E as <- <- <- <-. destruct (ob_new s KPtrs) as [[p|] s2]; [|discriminate Q]. destruct (ob_new s2 KStore) as [[t|] s3].
  - inv_do Q. destruct r as [[l|] s4]; [|discriminate Q]. injection Q as -> -> -> ->. rewrite (store_loop_full _ _ _ _ _ _ _ _ _ Q0). reflexivity.
  - inv_do Q. discriminate Q.
Qed.

(** What is accepted is accepted by OpenSSL with the whole store and some of the
    certificates. *)
Theorem accepted_closed : forall o inn cms certs store want s d data l s', ba_read cms = Ok d -> verify_cms o inn cms certs store want s = Ok (Some (data, l), s') ->
  exists c part full tr text, d2i_cms o d = Some c /\ opt_stack o certs = Some full /\ opt_sub part full /\ opt_store o store = Some tr /\
    cms_verify o c part tr (match tr with None => true | Some _ => false end) = Some text /\ option_map fst data = (match text with [] => None | _ => Some text end).
Proof.
  intros o inn cms certs store want s d data l s' RD E. unfold verify_cms in E. rewrite RD in E. cbn [obind] in E. inv_do E. destruct r as [p s1]. unfold parse_cms in Q. destruct (parse KCms (d2i_cms o d) s) as [[[c x]|] s0] eqn:P; cbn [obind] in Q.
  2:{ injection Q as <- <-. discriminate E. }
  destruct (add_certs (in_certs inn c) s0 x) as [s0'|]; [|discriminate Q]. cbn [obind] in Q. injection Q as <- <-. apply parse_some in P.
  inv_do E. destruct r as [[[sv stack]|] s2].
  2:{ inv_do E. discriminate E. }
  inv_do E. destruct r as [[[[tv st] pt]|] s3].
  2:{ inv_do E. inv_do E. discriminate E. }
  destruct (ob_new s3 KBio) as [mem s4].
  assert (LV : forall A (a : A) b s5 s6, obind (free KBio s5 mem) (fun s => obind (free KStack s stack) (fun s => obind (free KCms s (Some x)) (fun s => obind (free_x509_store s st pt) (fun s => Ok (a, s))))) = Ok (b, s6) -> a = b).
  { clear. intros A a b s5 s6 E. repeat inv_do E. injection E as -> _. reflexivity. }
  destruct mem as [mem|]; [|apply LV in E; discriminate E]. inv_do E. destruct (cms_verify o c sv tv _) as [text|] eqn:V; [|apply LV in E; discriminate E].
  destruct (bio_to_ptr r text) as [b s5] eqn:BP. destruct b as [b|]; [|apply LV in E; discriminate E].
  destruct (opt_get_stack_sub _ _ _ _ _ _ Q) as (full & F & S). exists c, sv, full, tv, text. split; [exact P|]. split; [exact F|]. split; [exact S|]. split; [exact (opt_get_store_full _ _ _ _ _ _ _ _ Q0)|]. split; [exact V|].
  assert (D : data = match b with None => None | Some b => Some (text, b) end).
  { destruct want; [|apply LV in E; injection E as <- _; reflexivity]. inv_do E. destruct r0 as [[r0|] s6]; apply LV in E; [|discriminate E]. injection E as <- _. reflexivity. }
  subst data. unfold bio_to_ptr in BP. destruct text as [|t0 text]; [injection BP as <- <-; reflexivity|]. destruct (ob_new r KBuf) as [[b0|] s6]; [|discriminate BP]. injection BP as <- <-. reflexivity.
Qed.
(** So nothing is accepted that would be refused with memory enough. *)
Theorem accepted_monotone : forall o inn cms certs store want s d data l s', monotone o -> ba_read cms = Ok d -> verify_cms o inn cms certs store want s = Ok (Some (data, l), s') ->
  crypto_verify_cms o cms certs store false = Ok (Some (option_map fst data, None)).
Proof.
  intros o inn cms certs store want s d data l s' MO RD E. destruct (accepted_closed _ _ _ _ _ _ _ _ _ _ _ RD E) as (c & part & full & tr & text & C & F & S & T & V & D).
  unfold crypto_verify_cms. rewrite RD. cbn [obind]. rewrite C, F, T, (proj1 MO _ _ _ _ _ _ S V), D. reflexivity.
Qed.
Theorem chain_monotone : forall o inn cert certs store s d s', monotone o -> ba_read cert = Ok d -> verify_cert o inn cert certs store s = Ok (0%Z, s') -> crypto_verify_cert o cert certs store = Ok 0%Z.
Proof.
  intros o inn cert certs store s d s' MO RD E. unfold verify_cert, crypto_verify_cert in *. destruct (ba_data cert); [|discriminate E]. destruct certs as [cl|]; [|discriminate E]. rewrite RD in *. cbn [obind] in *.
  destruct (parse KCert (d2i_x509 o d) s) as [[[v x]|] s1] eqn:P; [|discriminate E]. rewrite (parse_some _ _ _ _ _ _ _ P). inv_do E. destruct r as [[[sv stack]|] s2].
  2:{ inv_do E. discriminate E. }
  destruct (get_stack_sub _ _ _ _ _ _ Q) as (full & F & S). rewrite F. inv_do E. destruct r as [[[[tv st] pt]|] s3].
  2:{ inv_do E. inv_do E. discriminate E. }
  rewrite (opt_get_store_full _ _ _ _ _ _ _ _ Q0). inv_do E. destruct r as [out s4]. repeat inv_do E. injection E as E _.
  unfold built_chain in Q1. destruct (build_chain o v sv tv) as [chain|] eqn:BC; [|injection Q1 as <- <-; discriminate E]. destruct (ob_new s3 KStack) as [[cc|] s5]; [|injection Q1 as <- <-; discriminate E]. inv_do Q1. injection Q1 as <- <-.
  destruct chain as [|y ys]; [discriminate E|]. destruct (proj2 MO _ _ _ _ _ _ S BC) as (z & zs & ->). reflexivity.
Qed.
(** What is signed is signed over the data, with some of the additional certificates. *)
Theorem signed_closed : forall o k data cert key certs s cb kb out b s', ba_read cert = Ok cb -> ba_read key = Ok kb -> sign_cms o k data cert key certs s = Ok (Some (out, b), s') ->
  exists x kv part full c, d2i_x509 o cb = Some x /\ d2i_by o k kb = Some kv /\ opt_stack o certs = Some full /\ opt_sub part full /\ cms_sign o x kv part data = Some c /\ i2d_cms o c = Some out.
Proof.
  intros o k data cert key certs s cb kb out b s' RC RK E. unfold sign_cms in E. destruct (ba_data cert); [|discriminate E]. destruct (ba_data key); [|discriminate E]. rewrite RC, RK in E. cbn [obind] in E.
  destruct (parse KKey (d2i_by o k kb) s) as [[[kv kx]|] s1] eqn:PK; [|discriminate E]. inv_do E. destruct r as [out' s2]. cbn [obind] in E. inv_do E. injection E as -> _. clear Q0.
  unfold sign_withkey in Q. destruct (ob_new s1 KBio) as [[mem|] s3]; [|discriminate Q]. destruct (ob_call s3) as [w s4]. destruct (w <? 0)%Z; [inv_do Q; discriminate Q|].
  destruct (parse KCert (d2i_x509 o cb) s4) as [[[cv x]|] s5] eqn:PC; [|inv_do Q; discriminate Q]. inv_do Q. destruct r0 as [[[sv stack]|] s6]; [|inv_do Q; inv_do Q; discriminate Q].
  inv_do Q. destruct r0 as [cr s7]. inv_do Q. destruct r0 as [o1 s8]. repeat inv_do Q. injection Q as -> _.
  destruct cr as [[c ci]|]; [|discriminate Q2]. destruct (opt_get_stack_sub _ _ _ _ _ _ Q0) as (full & F & S). exists cv, kv, sv, full, c.
  split; [exact (parse_some _ _ _ _ _ _ _ PC)|]. split; [exact (parse_some _ _ _ _ _ _ _ PK)|]. split; [exact F|]. split; [exact S|]. split.
  - unfold cms_signed in Q1. destruct (parse KCms (cms_sign o cv kv sv data) s6) as [[[c' x']|] s9] eqn:PS; [|discriminate Q1]. inv_do Q1. injection Q1 as -> _ _. exact (parse_some _ _ _ _ _ _ _ PS).
  - unfold cms_to_derbuf in Q2. destruct (ob_new s7 KBio) as [[m|] s9]; [|discriminate Q2]. destruct (i2d_cms o c) as [dd|]; [|inv_do Q2; discriminate Q2]. destruct (bio_to_ptr s9 dd) as [[bb|] s10]; [|inv_do Q2; discriminate Q2]. inv_do Q2. injection Q2 as -> _ _. reflexivity.
Qed.

(** ** The MASA *)
(** Every voucher the MASA issues comes after a use of a certificate that was released. *)
Theorem masa_touches : forall o inn cms expires cb cert key rc rs pc ps extra voucher s, coherent inn -> signers_found o -> steady s ->
  sign_masa_pledge_voucher o (Some cms) expires cb cert key rc rs pc ps extra = Ok (Some voucher) -> exists k, verify_cms o inn cms rc rs true s = UB k.
Proof.
  intros o inn cms expires cb cert key rc rs pc ps extra voucher s CO SF ST E. unfold sign_masa_pledge_voucher in E. destruct expires as [ex|]; [|discriminate E]. destruct cb as [cb|]; [|discriminate E].
  destruct (verify_cms_voucher o (Some cms) rc rs true) as [[r|]|] eqn:V; [clear E|discriminate E|discriminate E]. cbn [verify_cms_voucher] in V. destruct (crypto_verify_cms o cms rc rs true) as [[[data l]|]|] eqn:C; [clear V|discriminate V|discriminate V].
  destruct (ba_read cms) as [d|] eqn:RD; [|unfold crypto_verify_cms in C; rewrite RD in C; discriminate C]. apply (verify_crashes o inn cms rc rs s d RD CO ST).
  unfold crypto_verify_cms in C. rewrite RD in C. cbn [obind] in C. destruct (d2i_cms o d) as [c|] eqn:DC; [|discriminate C]. destruct (opt_stack o rc) as [stk|] eqn:SK; [|discriminate C]. destruct (opt_store o rs) as [tr|] eqn:TR; [|discriminate C].
  destruct (cms_verify o c stk tr _) as [text|] eqn:CV; [|discriminate C]. destruct (SF _ _ _ _ _ CV) as (x & xs & SG). exists c, stk, tr, text, x, xs. auto.
Qed.

(** ** Small cases *)
Definition toy_inner : inner toy := mk_inner toy (fun _ => 1) (fun _ _ => [FromMessage 0]) (fun _ _ => false) (fun _ _ _ => [FromTarget]).
Lemma toy_coherent : coherent toy_inner.
Proof. intros c st. split; [constructor; [cbn; lia|constructor]|]. intros xs H. injection H as <-. reflexivity. Qed.
Lemma toy_signers : signers_found toy.
Proof. intros [id t] l tr skip text H. exists [id], []. reflexivity. Qed.
(** A store that refuses everything; messages that show the number of certificates put
    into them, and chains through any of the certificates. *)
Definition toy_full : ossl := mk_ossl bytes bytes (N * bytes) bytes (d2i_x509 toy) (i2d_x509 toy) (d2i_crl toy) (d2i_cms toy) (i2d_cms toy) (d2i_key toy) (d2i_eckey toy) (d2i_rsakey toy)
  (fun _ _ => false) (cms_sign toy) (cms_verify toy) (cms_signers toy) (build_chain toy).
Definition toy_count : ossl := mk_ossl bytes bytes (N * bytes) bytes (d2i_x509 toy) (i2d_x509 toy) (d2i_crl toy) (d2i_cms toy) (i2d_cms toy) (d2i_key toy) (d2i_eckey toy) (d2i_rsakey toy)
  (store_add toy) (fun x k l t => Some (hd 0%N x, match l with Some l => N.of_nat (List.length l) | None => 0%N end :: t)) (cms_verify toy) (cms_signers toy)
  (fun x certs st => match st with None => Some [x] | Some l => if existsb (toy_in (nth 1 x 0%N)) l then Some [x] else if existsb (fun y => (hd 0%N y =? nth 1 x 0)%N && existsb (toy_in (nth 1 y 0%N)) l) certs then Some [x; x] else None end).
Lemma count_monotone : monotone toy_count.
Proof.
  split.
  - intros c l m t skip text _ H. exact H.
  - intros x l m t y ys S H. cbn [build_chain toy_count] in *. destruct t as [t|]; [|eauto]. destruct (existsb (toy_in (nth 1 x 0%N)) t); [eauto|]. match type of H with (if ?e then _ else _) = _ => destruct e eqn:EL end; [|discriminate H].
    assert (EM : forall f : bytes -> bool, existsb f l = true -> existsb f m = true) by (clear - S; intros f; induction S as [|z l m S IH|z l m S IH]; cbn [existsb]; [auto| |]; rewrite ?orb_true_iff; intuition).
    match goal with |- context [if ?e then _ else _] => assert (Q : e = true) by exact (EM _ EL); rewrite Q end. eauto.
Qed.
Definition fine : objs := mk_objs [] (fun _ => 1%Z).
Definition failing (n : nat) (z : Z) : objs := mk_objs [] (fun i => if Nat.eqb i n then z else 1%Z).
Lemma fine_steady : steady fine.
Proof. intros n. reflexivity. Qed.

Theorem verify_refuted : exists o (inn : inner o) cms certs store s d k, coherent inn /\ signers_found o /\ steady s /\ ba_read cms = Ok d /\ crypto_verify_cms o cms certs store true <> Ok None /\ verify_cms o inn cms certs store true s = UB k.
Proof.
  exists toy, toy_inner, (ba_of [3; 65; 66]%N), None, (Some [([3; 0]%N, 0%Z)]), fine, [3; 65; 66]%N. destruct (verify_cms toy toy_inner (ba_of [3; 65; 66]%N) None (Some [([3; 0]%N, 0%Z)]) true fine) as [|k] eqn:E; [exfalso; vm_compute in E; discriminate E|]. exists k.
  split; [exact toy_coherent|]. split; [exact toy_signers|]. split; [exact fine_steady|]. split; [reflexivity|]. split; [vm_compute; discriminate|reflexivity].
Qed.
Theorem store_refuted : exists o (inn : inner o) cms certs store s d s' x, coherent inn /\ steady s /\ ba_read cms = Ok d /\ verify_cms o inn cms certs store false s = Ok (None, s') /\ ob_next s <= x /\ ob_at s' x = Alive KCert 1 [].
Proof.
  exists toy_full, (mk_inner toy_full (fun _ => 1) (fun _ _ => [FromMessage 0]) (fun _ _ => false) (fun _ _ _ => [FromTarget])), (ba_of [3; 65; 66]%N), None, (Some [([3; 0]%N, 0%Z)]), fine, [3; 65; 66]%N. eexists. exists 4.
  split; [intros c st; split; [constructor; [cbn; lia|constructor]|]; intros xs H; injection H as <-; reflexivity|]. split; [exact fine_steady|]. split; [reflexivity|]. split; [vm_compute; reflexivity|]. split; [vm_compute; lia|]. vm_compute. reflexivity.
Qed.
Theorem push_refuted : exists o (inn : inner o) cert certs store s d s' x, ba_read cert = Ok d /\ verify_cert o inn cert certs store s = Ok (0%Z, s') /\ ob_next s <= x /\ ob_at s' x = Alive KCert 1 [].
Proof.
  exists toy, toy_inner, (ba_of [5; 3]%N), (Some [([4; 3]%N, 0%Z)]), (Some [([3; 0]%N, 0%Z)]), (failing 3 0%Z), [5; 3]%N. eexists. exists 2.
  split; [reflexivity|]. split; [vm_compute; reflexivity|]. split; [vm_compute; lia|]. vm_compute. reflexivity.
Qed.
Theorem sign_refuted : exists o k data cert key certs s out out' b s', sign_cms o k data cert key certs s = Ok (Some (out, b), s') /\ crypto_sign o k data cert key certs = Ok (Some out') /\ out <> out'.
Proof.
  exists toy_count, KAuto, [65]%N, (ba_of [3; 0]%N), (ba_of [3]%N), (Some [([4; 3]%N, 0%Z); ([5; 3]%N, 0%Z)]), (failing 6 0%Z). eexists; eexists; eexists; eexists. split; [vm_compute; reflexivity|]. split; [vm_compute; reflexivity|]. vm_compute. discriminate.
Qed.
Theorem rsakey_refuted : exists s k, generate_rsakey s = UB k.
Proof. exists (failing 4 (-2)%Z), NullDeref. vm_compute. reflexivity. Qed.
Theorem cert_refuted : exists m s s' x p, generate_cert m true s = Ok (None, s') /\ x <> p /\ ob_next s <= x /\ ob_next s <= p /\ ob_at s' x = Alive KCert 1 [] /\ ob_at s' p = Alive KKey 1 [].
Proof. exists (mk_shape false true None None false), (failing 8 0%Z). eexists. exists 0, 7. split; [vm_compute; reflexivity|]. split; [lia|]. repeat (split; [vm_compute; lia|]). split; vm_compute; reflexivity. Qed.
