(** The command sign-cert over TLS connections. *)
From Verif Require Import Base PBase MSerialize MVoucher MCrypto MRequest MHeap MHandlers MHttp MSignCert MTls SBase64 SHeap SArray SConfig SVoucher SRequest SHandlers SPledge SSignCert STls PBase64 PRequest6 PMasa PPledge4 PSignCert3 PTls PTls2.
Open Scope N_scope.

Lemma pem_string d : create_cert_string (rfc_encode d) = pem d.
Proof. unfold create_cert_string, pem. rewrite <- ?app_assoc. reflexivity. Qed.

Lemma contact_of w net key cert host body z b v t : pledge_post w net key cert host body = ((z, b, Some v), t) -> (0 <= z)%Z ->
  forall tls, cv_der v = Some tls -> answered net tls body z b.
Proof.
  unfold pledge_post. intros E Z tls D.
  destruct (peer_of_answer _ _ _ _ _ _ _ _ _ _ E) as (n & chain & a & id & before & N & R & _ & P); [lia|].
  destruct chain as [|c r]; cbn [hd_error] in P; [discriminate|]. destruct (cv_der c) eqn:Dc; [|discriminate]. injection P as ->.
  exists n, c, r, a, id. repeat split; congruence.
Qed.
Lemma enrol_answer w net key cert host pinned body z b t : enrol_post w net key cert host pinned body = ((z, b), t) -> z <> (-1)%Z ->
  exists n chain a id, net n = Reached chain a /\ trusted_by w (anchors_of w (create_cert_string pinned)) chain /\ shows w cert key id /\ a id body = Replied z b.
Proof.
  intros E NZ. pose proof (enrol_written _ _ _ _ _ _ _ _ _ E) as WR. unfold enrol_post in E.
  destruct (post_ca_cases w net key cert (create_cert_string pinned) host body) as [(C & F) | (id & r & l & lost & k & S & X & F)]; rewrite F in E.
  - injection E as <- <- <-. congruence.
  - destruct r as [z' b'| |]; injection E as <- <- <-; try congruence.
    destruct (exchange_answer _ _ _ _ _ _ _ _ _ _ _ X) as (n & chain & a & before & N & R & L & _).
    exists n, chain, a, id. split; [assumption|]. split; [|split; assumption].
    cbn [tr_sent] in WR. destruct (WR (mk_sent chain id body)) as (T & _); [rewrite L; apply in_or_app; right; left; reflexivity|]. exact T.
Qed.

Lemma pledge_post_ok w net key cert host : network_ok net -> post_ok (fun body => fst (pledge_post w net key cert host body)).
Proof.
  intros NO body s r v _ E. destruct (pledge_post w net key cert host body) as [[[z b] p] t] eqn:Q. cbn [fst] in E. injection E as <- <- <-.
  destruct (Z.eq_dec z (-1)) as [->|NZ].
  - unfold pledge_post in Q. destruct (post_request_cases w net key cert host false body) as [(C & F) | (id & r & l & lost & k & S & X & F)]; rewrite F in Q.
    + injection Q as <- <- <-. split; [constructor | discriminate].
    + destruct r as [z' b'| |]; injection Q; intros; subst; try (split; [constructor | discriminate]).
      destruct (exchange_answer _ _ _ _ _ _ _ _ _ _ _ X) as (n & chain & a & before & N & R & L & K). cbn [cl_verify ssl_client] in K. subst k.
      destruct (NO _ _ _ N) as (V & B). split; [exact (B _ _ _ _ R)|]. intros v' P. destruct chain as [|c rr]; cbn in P; [discriminate|].
      destruct (cv_der c); [|discriminate]. injection P as <-. apply V. left; reflexivity.
  - unfold pledge_post in Q. destruct (peer_of_answer _ _ _ _ _ _ _ _ _ _ Q NZ) as (n & chain & a & id & before & N & R & _ & P).
    destruct (NO _ _ _ N) as (V & B). split; [exact (B _ _ _ _ R)|]. intros v' P'. subst p. destruct chain as [|c rr]; cbn in P'; [discriminate|].
    destruct (cv_der c); [|discriminate]. injection P' as <-. apply V. left; reflexivity.
Qed.
Lemma enrol_post_ok w net key cert host : network_ok net -> post_ca_ok (fun ca body => fst (httplib_post_request_ca w net key cert ca host body)).
Proof.
  intros NO ca body s r _ E.
  destruct (post_ca_cases w net key cert ca host body) as [(C & F) | (id & rr & l & lost & k & S & X & F)]; rewrite F in E; cbn [fst] in E.
  - injection E as <- <-. constructor.
  - destruct rr as [z' b'| |]; injection E as <- <-; try constructor.
    destruct (exchange_answer _ _ _ _ _ _ _ _ _ _ _ X) as (n & chain & a & before & N & R & _). exact (proj2 (NO _ _ _ N) _ _ _ _ R).
Qed.

(** The command as a whole, with the connections it makes. *)
Lemma sign_over_tls : forall o w tw c f dv net1 net2 net3 key cert host h h', ossl_sane o -> world_ok w -> heap_wf h -> plenty h -> pledge_config h c f -> pledge_text_ok f -> device_ok dv ->
  network_ok net1 -> network_ok net2 -> network_ok net3 ->
  sign_cert_command o w c dv (fun b => fst (pledge_post tw net1 key cert host b)) (fun b => fst (pledge_post tw net2 key cert host b))
    (fun ca b => fst (httplib_post_request_ca tw net3 key cert ca host b)) h = Ok (0%Z, h') ->
  exists tls1 tls2 cms voucher m d own_key own_cert issued z1 r1 z2 z3 answer n chain a id,
    answered net1 tls1 [] z1 r1 /\ pledge_asks o w f tls1 cms /\
    answered net2 tls2 (rfc_encode cms) z2 voucher /\ rfc_decode (c_string voucher) = Some m /\ pledge_takes o w f tls2 m d /\
    generated dv own_key own_cert /\
    net3 n = Reached chain a /\ trusted_by tw ((match tw_pem tw (pem d) with Some l => l | None => [] end) ++ tw_system tw) chain /\
    shows tw cert key id /\ a id (rfc_encode own_cert) = Replied z3 answer /\ rfc_decode (c_string answer) = Some issued /\ both_arrays h h' issued own_key.
Proof.
  intros o w tw c f dv net1 net2 net3 key cert host h h' OS WO W PL CF TX DO N1 N2 N3 E.
  destruct (command_outcome _ _ _ _ _ _ _ _ _ _ _ OS WO W PL CF TX (pledge_post_ok tw net1 key cert host N1) (pledge_post_ok tw net2 key cert host N2) (enrol_post_ok tw net3 key cert host N3) DO E)
    as [(_ & own & issued & (answer & (tls1 & tls2 & d & ocert & s & (cms & voucher & m & FC & PA & _ & SC & DM & PT) & _ & G & _ & P3 & S3) & DR) & BA) | (Q & _)]; [|discriminate].
  destruct FC as (z1 & r1 & v1 & P1 & Z1 & D1). destruct SC as (z2 & v2 & P2 & Z2 & D2).
  destruct (pledge_post tw net1 key cert host []) as [q1 t1] eqn:Q1. cbn [fst] in P1. subst q1.
  destruct (pledge_post tw net2 key cert host (rfc_encode cms)) as [q2 t2] eqn:Q2. cbn [fst] in P2. subst q2.
  rewrite <- pem_string in P3.
  change (httplib_post_request_ca tw net3 key cert (create_cert_string (rfc_encode d)) host (rfc_encode ocert)) with (enrol_post tw net3 key cert host (rfc_encode d) (rfc_encode ocert)) in P3.
  destruct (enrol_post tw net3 key cert host (rfc_encode d) (rfc_encode ocert)) as [q3 t3] eqn:Q3. cbn [fst] in P3. subst q3.
  destruct (enrol_answer _ _ _ _ _ _ _ _ _ _ Q3) as (n & chain & a & id & N & T & SH & R); [lia|].
  unfold anchors_of in T. rewrite pem_string in T.
  exists tls1, tls2, cms, voucher, m, d, own, ocert, issued, z1, r1, z2, s, answer, n, chain, a, id.
  split; [exact (contact_of _ _ _ _ _ _ _ _ _ _ Q1 Z1 _ D1)|]. split; [assumption|].
  split; [exact (contact_of _ _ _ _ _ _ _ _ _ _ Q2 (proj1 Z2) _ D2)|]. repeat split; assumption || apply T.
Qed.
