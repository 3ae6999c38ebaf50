(** Proofs of the properties of TLS connections. *)
From Verif Require Import Base PBase MSerialize MHandlers MHttp MSignCert MTls STls PTls.
Open Scope N_scope.

Lemma accepted_plain w host cert key st chain : server_accepted w (ssl_client w host cert key false false) st chain = true.
Proof. reflexivity. Qed.
Lemma accepted_verified w host cert key st chain :
  server_accepted w (ssl_client w host cert key true false) st chain = true <-> trusted_by w st chain.
Proof.
  unfold server_accepted, trusted_by. cbn [cl_verify cl_verify_host ssl_client]. destruct chain as [|x r].
  - split; [discriminate | intros (A & _); congruence].
  - cbn [negb orb]. rewrite Bool.andb_true_r. split; [intros ->; split; [discriminate | reflexivity] | intros (_ & ->); reflexivity].
Qed.

(** What every exchange writes. *)
Lemma exchange_sent w c st id net body r l lost k s : exchange w c st id net body r l lost k -> In s l ->
  server_accepted w c st (sn_chain s) = true /\ sn_identity s = id /\ sn_body s = body.
Proof.
  intros X I. destruct X as [N | chain a r N A R | chain a N A R N1 k | chain a chain1 a1 r N A R N1 A1 R1]; cbn [In] in I.
  - destruct I.
  - destruct I as [<- | []]. repeat split; assumption.
  - destruct I as [<- | []]. repeat split; assumption.
  - destruct I as [<- | [<- | []]]; repeat split; assumption.
Qed.
Lemma exchange_first w c st id net body r l lost k chain a : exchange w c st id net body r l lost k ->
  net 0%nat = Reached chain a -> server_accepted w c st chain = true -> exists l', l = mk_sent chain id body :: l'.
Proof.
  intros X N0 A0. destruct X as [[N | (ch & b & N & A)] | ch b r N A R | ch b N A R N1 k | ch b chain1 a1 r N A R N1 A1 R1];
    rewrite N0 in N; try discriminate; injection N as <- <-; try congruence; eexists; reflexivity.
Qed.
Lemma exchange_replied w c st id net body r l lost k chain a z b : exchange w c st id net body r l lost k ->
  net 0%nat = Reached chain a -> server_accepted w c st chain = true -> a id body = Replied z b ->
  r = SAnswer z b /\ l = [mk_sent chain id body] /\ lost = [] /\ k = if cl_verify c then None else hd_error chain.
Proof.
  intros X N0 A0 R0. destruct X as [[N | (ch & b' & N & A)] | ch b' r N A R | ch b' N A R N1 k | ch b' chain1 a1 r N A R N1 A1 R1];
    rewrite N0 in N; try discriminate; injection N as <- <-; try congruence.
  destruct R as [(R & _) | (z' & b'' & R & ->)]; [congruence|]. rewrite R0 in R. injection R as <- <-. repeat split.
Qed.

(** ** Enrolment (C93) *)

Lemma enrol_written w net key cert host pinned body t res : enrol_post w net key cert host pinned body = (res, t) ->
  forall s, In s (tr_sent t) -> trusted_by w (anchors_of w (create_cert_string pinned)) (sn_chain s) /\ shows w cert key (sn_identity s) /\ sn_body s = body.
Proof.
  unfold enrol_post. intros E s I.
  destruct (post_ca_cases w net key cert (create_cert_string pinned) host body) as [(_ & F) | (id & r & l & lost & k & S & X & F)]; rewrite F in E; injection E as <- <-; cbn [tr_sent] in I.
  - destruct I.
  - destruct (exchange_sent _ _ _ _ _ _ _ _ _ _ _ X I) as (A & -> & ->). apply accepted_verified in A. repeat split; try assumption; apply A.
Qed.

Lemma enrol_first w net key cert host pinned body res t chain a id :
  enrol_post w net key cert host pinned body = (res, t) -> net 0%nat = Reached chain a -> shows w cert key id ->
  (trusted_by w (anchors_of w (create_cert_string pinned)) chain ->
     (exists l, tr_sent t = mk_sent chain id body :: l) /\ (forall z b, a id body = Replied z b -> res = (z, b))) /\
  (~ trusted_by w (anchors_of w (create_cert_string pinned)) chain -> tr_sent t = [] /\ fst res = (-1)%Z).
Proof.
  unfold enrol_post. intros E N0 S.
  destruct (post_ca_cases w net key cert (create_cert_string pinned) host body) as [(C & F) | (id' & r & l & lost & k & S' & X & F)]; rewrite F in E; injection E as <- <-; cbn [tr_sent].
  { exfalso. apply C. exists id. assumption. }
  rewrite (shows_unique _ _ _ _ _ S' S) in X. clear S' id'. split.
  - intros T. apply (accepted_verified w host cert key) in T. split; [eapply exchange_first; eassumption|].
    intros z b R. destruct (exchange_replied _ _ _ _ _ _ _ _ _ _ _ _ _ _ X N0 T R) as (-> & _). reflexivity.
  - intros T. assert (A : server_accepted w (ssl_client w host cert key true false) (anchors_of w (create_cert_string pinned)) chain = false).
    { destruct (server_accepted w (ssl_client w host cert key true false) _ chain) eqn:A; [|reflexivity]. apply accepted_verified in A. tauto. }
    destruct X as [N | ch b' r N A' R | ch b' N A' R N1 k | ch b' chain1 a1 r N A' R N1 A1 R1]; try (rewrite N0 in N; injection N as <- <-; congruence).
    split; reflexivity.
Qed.

Lemma enrol_only_pinned w net key cert host pinned pin body res t : tw_pem w (create_cert_string pinned) = Some pin -> tw_system w = [] ->
  enrol_post w net key cert host pinned body = (res, t) -> written_only (trusted_by w pin) t.
Proof.
  intros P S E s I. destruct (enrol_written _ _ _ _ _ _ _ _ _ E s I) as (T & _).
  unfold anchors_of in T. rewrite P, S, app_nil_r in T. exact T.
Qed.
Lemma enrol_only_trusted w net key cert host pinned body res t :
  enrol_post w net key cert host pinned body = (res, t) ->
  written_only (trusted_by w ((match tw_pem w (create_cert_string pinned) with Some l => l | None => [] end) ++ tw_system w)) t.
Proof. intros E s I. exact (proj1 (enrol_written _ _ _ _ _ _ _ _ _ E s I)). Qed.

(** The witnesses. *)
Definition system_ca : cert_view := plain [9; 9].
Definition always (chain : list cert_view) (r : reply) : network := fun _ => Reached chain (fun _ _ => r).
Definition leaf_of_system : list cert_view := [plain [5; 9]].
Definition leaf_of_pinned : list cert_view := [plain [7; 1]].

Lemma enrol_system_refuted : exists w net key cert host pinned pin body chain b t,
  tw_pem w (create_cert_string pinned) = Some [pin] /\ ~ trusted_by w [pin] chain /\
  enrol_post w net key cert host pinned body = ((200%Z, b), t) /\ written_to chain body t.
Proof.
  exists (toy_tls [system_ca]), (always leaf_of_system (Replied 200 (s2b "cert"))), [1], [2; 1], [5], (s2b "AQE="), (plain [1; 1]), (s2b "body"), leaf_of_system, (s2b "cert").
  eexists. split; [vm_compute; reflexivity|]. split; [intros (_ & T); vm_compute in T; discriminate|].
  split; [vm_compute; reflexivity|]. eexists. split; [left; reflexivity|]. split; reflexivity.
Qed.
Lemma enrol_unread_refuted : exists w net key cert host pinned body chain b t,
  tw_pem w (create_cert_string pinned) = None /\ enrol_post w net key cert host pinned body = ((200%Z, b), t) /\ written_to chain body t.
Proof.
  exists (toy_tls [system_ca]), (always leaf_of_system (Replied 200 (s2b "cert"))), [1], [2; 1], [5], (s2b "?"), (s2b "body"), leaf_of_system, (s2b "cert").
  eexists. split; [vm_compute; reflexivity|].
  split; [vm_compute; reflexivity|]. eexists. split; [left; reflexivity|]. split; reflexivity.
Qed.
Lemma enrol_host_refuted : exists w net key cert host pinned body chain leaf b t,
  hd_error chain = Some leaf /\ tw_names w leaf host = false /\
  enrol_post w net key cert host pinned body = ((200%Z, b), t) /\ written_to chain body t.
Proof.
  exists (toy_tls []), (always leaf_of_pinned (Replied 200 (s2b "cert"))), [1], [2; 1], [5], (s2b "AQE="), (s2b "body"), leaf_of_pinned, (plain [7; 1]), (s2b "cert").
  eexists. split; [reflexivity|]. split; [vm_compute; reflexivity|].
  split; [vm_compute; reflexivity|]. eexists. split; [left; reflexivity|]. split; reflexivity.
Qed.

(** ** The registrar's request to the MASA (C94) *)

Lemma post_anyone w net key cert host body chain a id res t : shows w cert key id -> net 0%nat = Reached chain a ->
  registrar_post w net key cert host body = (res, t) ->
  written_to chain body t /\ (forall z b, a id body = Replied z b -> fst res = (z, b)).
Proof.
  intros S N0 E. unfold registrar_post in E.
  destruct (post_request_cases w net key cert host false body) as [(C & F) | (id' & r & l & lost & k & S' & X & F)]; rewrite F in E; injection E as <- <-.
  { exfalso. apply C. exists id. assumption. }
  rewrite (shows_unique _ _ _ _ _ S' S) in X. clear S' id'.
  split.
  - destruct (exchange_first _ _ _ _ _ _ _ _ _ _ _ _ X N0 (accepted_plain _ _ _ _ _ _)) as (l' & ->).
    eexists. split; [left; reflexivity|]. split; reflexivity.
  - intros z b R. destruct (exchange_replied _ _ _ _ _ _ _ _ _ _ _ _ _ _ X N0 (accepted_plain _ _ _ _ _ _) R) as (-> & _). reflexivity.
Qed.
Lemma post_anyone_refuted : exists w net key cert host ca body chain b peer t,
  ~ trusted_by w (tw_ca_file w ca ++ tw_system w) chain /\
  registrar_post w net key cert host body = ((200%Z, b, peer), t) /\ written_to chain body t.
Proof.
  exists (toy_tls [system_ca]), (always [plain [5; 5]] (Replied 200 (s2b "voucher"))), [1], [2; 1], [5], [3; 3], (s2b "body"), [plain [5; 5]], (s2b "voucher").
  eexists. eexists. split; [intros (_ & T); vm_compute in T; discriminate|].
  split; [vm_compute; reflexivity|]. eexists. split; [left; reflexivity|]. split; reflexivity.
Qed.

(** ** Who the client is (C95) *)

Lemma post_identity w net key cert host verify body res t : httplib_post_request w net key cert host verify body = (res, t) ->
  forall s, In s (tr_sent t) -> shows w cert key (sn_identity s) /\ sn_body s = body.
Proof.
  intros E s I. destruct (post_request_cases w net key cert host verify body) as [(C & F) | (id & r & l & lost & k & S & X & F)]; rewrite F in E; injection E as <- <-; cbn [tr_sent] in I; [destruct I|].
  destruct (exchange_sent _ _ _ _ _ _ _ _ _ _ _ X I) as (_ & -> & ->). split; [assumption | reflexivity].
Qed.
Lemma configured_identity w net key cert host verify pinned body : cert <> [] -> key <> [] ->
  (forall res t s, httplib_post_request w net key cert host verify body = (res, t) -> In s (tr_sent t) -> exists c, tw_client_pair w cert key = Some c /\ sn_identity s = Some c) /\
  (forall res t s, enrol_post w net key cert host pinned body = (res, t) -> In s (tr_sent t) -> exists c, tw_client_pair w cert key = Some c /\ sn_identity s = Some c) /\
  (tw_client_pair w cert key = None ->
     httplib_post_request w net key cert host verify body = (((-1)%Z, [], None), mk_trace [] []) /\
     enrol_post w net key cert host pinned body = (((-1)%Z, []), mk_trace [] [])).
Proof.
  intros Hc Hk.
  assert (Q : forall id, shows w cert key id -> exists c, tw_client_pair w cert key = Some c /\ id = Some c).
  { intros id [(_ & [-> | ->]) | (c & -> & _ & _ & P)]; [congruence | congruence | exists c; split; [assumption | reflexivity]]. }
  split; [|split].
  - intros res t s E I. apply Q. exact (proj1 (post_identity _ _ _ _ _ _ _ _ _ E s I)).
  - intros res t s E I. apply Q. exact (proj1 (proj2 (enrol_written _ _ _ _ _ _ _ _ _ E s I))).
  - intros N. assert (C : ~ can_connect w cert key) by (intros (id & S); destruct (Q id S) as (c & P & _); congruence).
    split.
    + destruct (post_request_cases w net key cert host verify body) as [(_ & F) | (id & r & l & lost & k & S & _)]; [exact F|]. exfalso. apply C. exists id. exact S.
    + unfold enrol_post. destruct (post_ca_cases w net key cert (create_cert_string pinned) host body) as [(_ & F) | (id & r & l & lost & k & S & _)]; [exact F|]. exfalso. apply C. exists id. exact S.
Qed.
Lemma identity_refuted : exists w net key host body b peer t s,
  tw_client_pair w [] key = None /\ pledge_post w net key [] host body = ((200%Z, b, peer), t) /\ In s (tr_sent t) /\ sn_identity s = None.
Proof.
  exists (toy_tls []), (always [plain [5; 5]] (Replied 200 (s2b "voucher"))), [1], [5], (s2b "body"), (s2b "voucher").
  eexists. eexists. eexists. split; [reflexivity|]. split; [vm_compute; reflexivity|]. split; [left; reflexivity | reflexivity].
Qed.

(** ** Whom the servers serve (C96), and starting them (C97) *)

Lemma start_tls_some w cp cert key ca routes listen r : httplib_start_tls w cp cert key ca routes listen = Ok r ->
  forall ctx, snd r = Some ctx -> exists c k chain, cert = Some c /\ key = Some k /\ tw_server_pair w c k = Some chain /\
    ctx = mk_sctx chain (match ca with Some f => Verified (tw_ca_file w f) | None => AnyClient end).
Proof.
  unfold httplib_start_tls. intros E ctx S. destruct cert as [c|]; [|injection E as <-; discriminate].
  destruct key as [k|]; [|injection E as <-; discriminate].
  unfold ssl_server in E. destruct (tw_server_pair w c k) as [chain|] eqn:P.
  - assert (E' : obind (httplib_start cp (Some c) (Some k) true routes listen)
      (fun x => Ok (x, Some (mk_sctx chain (match ca with Some f => Verified (tw_ca_file w f) | None => AnyClient end)))) = Ok r)
      by (destruct ca; exact E). clear E.
    destruct (httplib_start cp (Some c) (Some k) true routes listen) as [x|]; [|discriminate].
    cbn [obind] in E'. injection E' as <-. cbn [snd] in S. injection S as <-. exists c, k, chain. repeat split; try reflexivity; assumption.
  - destruct ca as [f|]; [|discriminate]. cbn [obind] in E.
    destruct (httplib_start cp (Some c) (Some k) true routes (fun _ => Some false)) as [x|]; [|discriminate].
    cbn [obind] in E. injection E as <-. discriminate.
Qed.
Lemma serves_ctx w cp cert key ca routes listen chain : serves w (httplib_start_tls w cp cert key ca routes listen) chain ->
  match ca with Some f => trusted_by w (tw_ca_file w f) chain | None => chain <> [] end.
Proof.
  intros (z & set & ctx & E & A). destruct (start_tls_some _ _ _ _ _ _ _ _ E ctx eq_refl) as (c & k & ch & -> & -> & P & ->).
  unfold ssl_accepts in A. cbn [sx_clients] in A. destruct chain as [|x r]; [discriminate|].
  destruct ca; [split; [discriminate | exact A] | discriminate].
Qed.
Lemma masa_serves w cp cert key ca rv listen chain :
  serves w (masa_start w cp cert key (Some ca) rv listen) chain -> trusted_by w (tw_ca_file w ca) chain.
Proof. exact (serves_ctx w cp cert key (Some ca) _ listen chain). Qed.
Lemma masa_serves_all w cp cert key ca rv listen chain z set ctx :
  masa_start w cp cert key (Some ca) rv listen = Ok (z, set, Some ctx) -> (ssl_accepts w ctx chain = true <-> trusted_by w (tw_ca_file w ca) chain).
Proof.
  intros E. split; [intros A; apply (masa_serves w cp cert key ca rv listen); exists z, set, ctx; split; assumption|].
  intros (NE & T). destruct (start_tls_some _ _ _ _ _ _ _ _ E ctx eq_refl) as (c & k & ch & -> & -> & P & ->).
  unfold ssl_accepts. cbn [sx_clients]. destruct chain; [congruence | exact T].
Qed.
Lemma registrar_serves_all w cp cert key ca rv se listen chain z set ctx :
  registrar_start w cp cert key ca rv se listen = Ok (z, set, Some ctx) -> (ssl_accepts w ctx chain = true <-> chain <> []).
Proof.
  intros E. destruct (start_tls_some _ _ _ _ _ _ _ _ E ctx eq_refl) as (c & k & ch & -> & -> & P & ->).
  unfold ssl_accepts. cbn [sx_clients]. destruct chain; split; congruence || discriminate || reflexivity.
Qed.
Definition any_path : compile := fun _ => Some (fun _ => true).
Definition idle : handle := fun _ _ => Answers 200 [] [].
Lemma registrar_serves_refuted : exists w cp cert key ca rv se listen chain,
  ~ trusted_by w (tw_ca_file w ca ++ tw_system w) chain /\ serves w (registrar_start w cp (Some cert) (Some key) (Some ca) rv se listen) chain.
Proof.
  exists (toy_tls [system_ca]), any_path, [2; 1], [1], [3; 3], idle, idle, (fun _ => Some true), [plain [5; 5]].
  split; [intros (_ & T); vm_compute in T; discriminate|]. eexists. eexists. eexists. split; [vm_compute; reflexivity | reflexivity].
Qed.
Lemma masa_serves_refuted : exists w cp cert key rv listen chain,
  ~ trusted_by w (tw_system w) chain /\ serves w (masa_start w cp (Some cert) (Some key) None rv listen) chain.
Proof.
  exists (toy_tls [system_ca]), any_path, [2; 1], [1], idle, (fun _ => Some true), [plain [5; 5]].
  split; [intros (_ & T); vm_compute in T; discriminate|]. eexists. eexists. eexists. split; [vm_compute; reflexivity | reflexivity].
Qed.

Lemma start_crash_refuted : exists w cp cert key rv se listen, tw_server_pair w cert key = None /\ (forall s, listen s = Some true) /\
  forall ca, registrar_start w cp (Some cert) (Some key) ca rv se listen = UB NullDeref.
Proof.
  exists (toy_tls []), any_path, [], [1], idle, idle, (fun _ => Some true). split; [reflexivity|]. split; [reflexivity|]. intros ca. reflexivity.
Qed.
Lemma start_silent_refuted : exists w cp cert key ca rv listen, tw_server_pair w cert key = None /\
  masa_start w cp (Some cert) (Some key) (Some ca) rv listen = Ok (0%Z, true, None).
Proof.
  exists (toy_tls []), any_path, [], [1], [3; 3], idle, (fun _ => Some true). split; vm_compute; reflexivity.
Qed.
(** Exactly when the set-up of TLS crashes. *)
Lemma start_crash_exact w cp cert key ca routes listen :
  httplib_start_tls w cp cert key ca routes listen = UB NullDeref <->
  exists c k, cert = Some c /\ key = Some k /\ ca = None /\ tw_server_pair w c k = None.
Proof.
  unfold httplib_start_tls, ssl_server. split.
  - destruct cert as [c|]; [|discriminate]. destruct key as [k|]; [|discriminate]. intros E.
    assert (B : forall s (f : server -> option bool), httplib_start cp (Some c) (Some k) true s f <> UB NullDeref).
    { intros s f. unfold httplib_start. cbn [negb]. destruct (register_routes cp no_handlers s) as [[z sv]|]; [|discriminate].
      destruct (z <? 0)%Z; [discriminate|]. destruct (f sv); discriminate. }
    assert (B' : forall s (f : server -> option bool) (ctx : option server_ctx), obind (httplib_start cp (Some c) (Some k) true s f) (fun x => Ok (x, ctx)) <> UB NullDeref).
    { intros s f ctx Q. destruct (httplib_start cp (Some c) (Some k) true s f) eqn:H; cbn [obind] in Q; [discriminate|]. injection Q as ->. exact (B _ _ H). }
    destruct ca as [f|].
    + cbn [obind] in E. exfalso. exact (B' _ _ _ E).
    + destruct (tw_server_pair w c k) eqn:P; [cbn [obind] in E; exfalso; exact (B' _ _ _ E)|]. exists c, k. repeat split. assumption.
  - intros (c & k & -> & -> & -> & P). rewrite P. reflexivity.
Qed.

(** ** The certificate handed back (C98) and the number of requests (C99) *)

Lemma exchange_answer w c st id net body z b l lost k : exchange w c st id net body (SAnswer z b) l lost k ->
  exists n chain a before, net n = Reached chain a /\ a id body = Replied z b /\ l = before ++ [mk_sent chain id body] /\
    k = if cl_verify c then None else hd_error chain.
Proof.
  intros X. inversion X as [N | chain a r N A R | chain a N A R N1 k' | chain a chain1 a1 r N A R N1 A1 R1]; subst.
  - exists 0%nat, chain, a, []. destruct R as [(_ & R) | (z' & b' & R & E)]; [discriminate|]. injection E as -> ->. repeat split; assumption.
  - exists 1%nat, chain1, a1, [mk_sent chain id body]. destruct R1 as [(_ & R1) | [(_ & R1) | (z' & b' & R1 & E)]]; try discriminate. injection E as -> ->. repeat split; assumption.
Qed.
Lemma peer_of_answer w net key cert host body z b peer t :
  httplib_post_request w net key cert host false body = ((z, b, peer), t) -> z <> (-1)%Z ->
  exists n chain a id before, net n = Reached chain a /\ a id body = Replied z b /\ tr_sent t = before ++ [mk_sent chain id body] /\
    peer = match hd_error chain with Some c => if cv_der c then Some c else None | None => None end.
Proof.
  intros E NZ. destruct (post_request_cases w net key cert host false body) as [(C & F) | (id & r & l & lost & k & S & X & F)]; rewrite F in E.
  - injection E as <- <- <- <-. congruence.
  - destruct r as [z' b'| |]; injection E as <- <- <- <-; try congruence.
    destruct (exchange_answer _ _ _ _ _ _ _ _ _ _ _ X) as (n & chain & a & before & N & R & L & K).
    exists n, chain, a, id, before. split; [assumption|]. split; [assumption|]. split; [exact L|].
    cbn [cl_verify ssl_client] in K. subst k. destruct (hd_error chain) as [c|]; [|reflexivity]. cbn [crypto_copycert]. destruct (cv_der c); reflexivity.
Qed.

Lemma exchange_lost w host cert key st id net body r l lost k : exchange w (ssl_client w host cert key false false) st id net body r l lost k ->
  lost <> [] -> exists chain a chain1 a1, net 0%nat = Reached chain a /\ a id body = Closed /\ net 1%nat = Reached chain1 a1 /\ chain <> [] /\ lost = firstn 1 chain.
Proof.
  intros X NE. inversion X as [N | chain a r' N A R | chain a N A R N1 k' | chain a chain1 a1 r' N A R N1 A1 R1]; subst; try congruence.
  exists chain, a, chain1, a1. cbn [cl_verify ssl_client] in *. destruct chain; [cbn in NE; congruence|]. repeat split; try assumption; try reflexivity. discriminate.
Qed.
Lemma lost_exact w net key cert host body res t id : shows w cert key id -> httplib_post_request w net key cert host false body = (res, t) ->
  (tr_lost t <> [] <-> exists chain a chain1 a1, net 0%nat = Reached chain a /\ a id body = Closed /\ net 1%nat = Reached chain1 a1 /\ chain <> []).
Proof.
  intros S E. destruct (post_request_cases w net key cert host false body) as [(C & F) | (id' & r & l & lost & k & S' & X & F)]; rewrite F in E; injection E as <- <-; cbn [tr_lost].
  - exfalso. apply C. exists id. assumption.
  - rewrite (shows_unique _ _ _ _ _ S' S) in X. split.
    + intros NE. destruct (exchange_lost _ _ _ _ _ _ _ _ _ _ _ _ X NE) as (chain & a & chain1 & a1 & A & B & D & G & _). exists chain, a, chain1, a1. tauto.
    + intros (chain & a & chain1 & a1 & A & B & D & G).
      inversion X as [[N | (ch & aa & N & AA)] | ch aa r' N AA R | ch aa N AA R N1 k' | ch aa ch1 aa1 r' N AA R N1 A1 R1]; subst; rewrite A in N; try discriminate; injection N as <- <-.
      * destruct R as [(R & _) | (z & b & R & _)]; congruence.
      * rewrite D in N1. destruct N1 as [N1 | (q & qa & N1 & Q)]; [discriminate | rewrite accepted_plain in Q; discriminate Q].
      * cbn [cl_verify ssl_client]. destruct chain; [congruence | discriminate].
Qed.
Lemma lost_refuted : exists w net key cert host body b peer t, pledge_post w net key cert host body = ((200%Z, b, peer), t) /\ tr_lost t <> [].
Proof.
  exists (toy_tls []), (fun n => Reached [plain [5; 5]] (fun _ _ => match n with O => Closed | _ => Replied 200 (s2b "voucher") end)), [1], [2; 1], [5], (s2b "body"), (s2b "voucher").
  eexists. eexists. split; [vm_compute; reflexivity | discriminate].
Qed.
Lemma verified_never_lost w net key cert host pinned body res t : enrol_post w net key cert host pinned body = (res, t) -> tr_lost t = [].
Proof.
  unfold enrol_post. intros E. destruct (post_ca_cases w net key cert (create_cert_string pinned) host body) as [(C & F) | (id & r & l & lost & k & S & X & F)]; rewrite F in E; injection E as <- <-; [reflexivity|].
  cbn [tr_lost]. inversion X; reflexivity.
Qed.

Lemma twice_refuted : exists w net key cert host pinned body b t, enrol_post w net key cert host pinned body = ((200%Z, b), t) /\ List.length (tr_sent t) = 2%nat.
Proof.
  exists (toy_tls []), (fun n => Reached leaf_of_pinned (fun _ _ => match n with O => Closed | _ => Replied 200 (s2b "cert") end)), [1], [2; 1], [5], (s2b "AQE="), (s2b "body"), (s2b "cert").
  eexists. split; [vm_compute; reflexivity | reflexivity].
Qed.
Lemma failed_refuted : exists w net key cert host pinned body t, enrol_post w net key cert host pinned body = (((-1)%Z, []), t) /\ tr_sent t <> [].
Proof.
  exists (toy_tls []), (always leaf_of_pinned Closed), [1], [2; 1], [5], (s2b "AQE="), (s2b "body").
  eexists. split; [vm_compute; reflexivity | discriminate].
Qed.
Lemma exchange_count w c st id net body r l lost k : exchange w c st id net body r l lost k ->
  (List.length l <= 2)%nat /\ ((2 <= List.length l)%nat -> exists chain a, net 0%nat = Reached chain a /\ a id body = Closed).
Proof.
  intros X. destruct X as [N | chain a r N A R | chain a N A R N1 k | chain a chain1 a1 r N A R N1 A1 R1]; cbn [List.length]; (split; [lia|]); intros L; try lia.
  exists chain, a. split; assumption.
Qed.
Lemma sent_count w net key cert host pinned body :
  (forall res t, httplib_post_request w net key cert host false body = (res, t) -> (List.length (tr_sent t) <= 2)%nat /\
     ((2 <= List.length (tr_sent t))%nat -> exists chain a id, net 0%nat = Reached chain a /\ shows w cert key id /\ a id body = Closed)) /\
  (forall res t, enrol_post w net key cert host pinned body = (res, t) -> (List.length (tr_sent t) <= 2)%nat /\
     ((2 <= List.length (tr_sent t))%nat -> exists chain a id, net 0%nat = Reached chain a /\ shows w cert key id /\ a id body = Closed)).
Proof.
  split; intros res t E.
  - destruct (post_request_cases w net key cert host false body) as [(C & F) | (id & r & l & lost & k & S & X & F)]; rewrite F in E; injection E as <- <-; cbn [tr_sent List.length]; [split; lia|].
    destruct (exchange_count _ _ _ _ _ _ _ _ _ _ X) as (L & Q). split; [assumption|]. intros H. destruct (Q H) as (chain & a & N & A). exists chain, a, id. tauto.
  - unfold enrol_post in E. destruct (post_ca_cases w net key cert (create_cert_string pinned) host body) as [(C & F) | (id & r & l & lost & k & S & X & F)]; rewrite F in E; injection E as <- <-; cbn [tr_sent List.length]; [split; lia|].
    destruct (exchange_count _ _ _ _ _ _ _ _ _ _ X) as (L & Q). split; [assumption|]. intros H. destruct (Q H) as (chain & a & N & A). exists chain, a, id. tauto.
Qed.
