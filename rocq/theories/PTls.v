(** Proofs about TLS: servers, clients and whom they trust. *)
From Verif Require Import Base PBase MSerialize MHandlers MHttp MSignCert MTls STls.
Open Scope N_scope.

(** ** Clients *)

Lemma ctx_shows w host cert key v vh id st : cl_ctx (ssl_client w host cert key v vh) = Some (id, st) -> shows w cert key id /\ st = [].
Proof.
  unfold ssl_client, shows. cbn [cl_ctx].
  destruct cert as [|c0 cr]; [intros H; injection H as <- <-; split; [left; split; [reflexivity | left; reflexivity] | reflexivity]|].
  destruct key as [|k0 kr]; [intros H; injection H as <- <-; split; [left; split; [reflexivity | right; reflexivity] | reflexivity]|].
  destruct (tw_client_pair w (c0 :: cr) (k0 :: kr)) as [x|] eqn:E; [|discriminate].
  intros H; injection H as <- <-. split; [|reflexivity]. right. exists x.
  repeat split; try assumption; discriminate.
Qed.
Lemma shows_ctx w host cert key v vh id : shows w cert key id -> cl_ctx (ssl_client w host cert key v vh) = Some (id, []).
Proof.
  unfold ssl_client. cbn [cl_ctx]. intros [[-> [->| ->]] | (c & -> & Hc & Hk & E)].
  - reflexivity.
  - destruct cert; reflexivity.
  - destruct cert; [congruence|]. destruct key; [congruence|]. rewrite E. reflexivity.
Qed.
Lemma shows_unique w cert key id id' : shows w cert key id -> shows w cert key id' -> id = id'.
Proof.
  intros [[-> H] | (c & -> & Hc & Hk & E)] [[-> H'] | (c' & -> & Hc' & Hk' & E')]; try congruence;
  destruct H || destruct H'; congruence.
Qed.
Lemma no_ctx w host cert key v vh : ~ can_connect w cert key -> cl_ctx (ssl_client w host cert key v vh) = None.
Proof.
  intros H. destruct (cl_ctx (ssl_client w host cert key v vh)) as [[id st]|] eqn:E; [|reflexivity].
  exfalso. apply H. exists id. exact (proj1 (ctx_shows _ _ _ _ _ _ _ _ E)).
Qed.

(** One connection of a client that has a context and has not yet connected or has
    already: what it writes and what it keeps. *)
Definition trust_of (w : tls_world) (v loaded : bool) (store : list cert_view) : list cert_view :=
  if v then (if loaded then store else store ++ tw_system w) else store.

Lemma send_once_spec w net body c id store :
  cl_ctx c = Some (id, store) ->
  let st := trust_of w (cl_verify c) (cl_loaded c) store in
  let '(r, c') := send_once w net body c in
  cl_verify c' = cl_verify c /\ cl_verify_host c' = cl_verify_host c /\ cl_host c' = cl_host c /\ cl_made c' = S (cl_made c) /\
  match net (cl_made c) with
  | Unreachable => r = SError /\ cl_sent c' = cl_sent c /\ cl_lost c' = cl_lost c
  | Reached chain answer =>
    cl_ctx c' = Some (id, st) /\ cl_loaded c' = cl_verify c || cl_loaded c /\
    if server_accepted w c st chain then
      r = match answer id body with Closed => SClosed | Failed => SError | Replied z b => SAnswer z b end /\
      cl_sent c' = cl_sent c ++ [mk_sent chain id body] /\
      (if cl_verify c then cl_cert c' = cl_cert c /\ cl_lost c' = cl_lost c
       else cl_cert c' = hd_error chain /\ cl_lost c' = cl_lost c ++ match cl_cert c with Some x => [x] | None => [] end)
    else r = SError /\ cl_sent c' = cl_sent c /\ cl_lost c' = cl_lost c
  end.
Proof.
  intros E. unfold send_once. rewrite E. destruct (net (cl_made c)) as [|chain answer].
  - cbn [cl_verify cl_verify_host cl_host cl_made cl_sent cl_lost]. repeat split.
  - cbv zeta. unfold trust_of, load_certs. set (st := if cl_verify c then _ else store).
    match goal with |- context [server_accepted w ?cc st chain] => replace (server_accepted w cc st chain) with (server_accepted w c st chain) by reflexivity end.
    destruct (server_accepted w c st chain); cbn [negb].
    + cbn [cl_verify cl_verify_host cl_host cl_made cl_sent cl_lost cl_cert cl_ctx cl_loaded].
      destruct (answer id body); cbn [cl_verify cl_verify_host cl_host cl_made cl_sent cl_lost cl_cert cl_ctx cl_loaded]; repeat split; destruct (cl_verify c); repeat split.
    + cbn [cl_verify cl_verify_host cl_host cl_made cl_sent cl_lost cl_ctx cl_loaded]. repeat split.
Qed.

(** The whole of [send] for a fresh client. *)
Definition fresh (c : client) : Prop := cl_cert c = None /\ cl_loaded c = false /\ cl_made c = 0%nat /\ cl_sent c = [] /\ cl_lost c = [].
Lemma fresh_client w host cert key v vh : fresh (ssl_client w host cert key v vh).
Proof. repeat split. Qed.
Lemma fresh_store w ca c : fresh c -> fresh (load_ca_cert_store w ca c).
Proof. unfold load_ca_cert_store. destruct (tw_pem w ca); [|tauto]. destruct (cl_ctx c) as [[id st]|]; tauto. Qed.

Lemma trust_again w v store : trust_of w v v (trust_of w v false store) = trust_of w v false store.
Proof. destruct v; reflexivity. Qed.

(** What a client gets and leaves: the connections, in turn. *)
Inductive exchange (w : tls_world) (c : client) (st : list cert_view) (id : option cert_view) (net : network) (body : bytes) : send_result -> list sent -> list cert_view -> option cert_view -> Prop :=
| XNone : (net 0%nat = Unreachable \/ exists chain a, net 0%nat = Reached chain a /\ server_accepted w c st chain = false) -> exchange w c st id net body SError [] [] None
| XOne chain a r : net 0%nat = Reached chain a -> server_accepted w c st chain = true ->
    (a id body = Failed /\ r = SError \/ exists z b, a id body = Replied z b /\ r = SAnswer z b) ->
    exchange w c st id net body r [mk_sent chain id body] [] (if cl_verify c then None else hd_error chain)
| XRetryNone chain a : net 0%nat = Reached chain a -> server_accepted w c st chain = true -> a id body = Closed ->
    (net 1%nat = Unreachable \/ exists chain1 a1, net 1%nat = Reached chain1 a1 /\ server_accepted w c st chain1 = false) ->
    forall k, exchange w c st id net body SError [mk_sent chain id body] [] k
| XRetry chain a chain1 a1 r : net 0%nat = Reached chain a -> server_accepted w c st chain = true -> a id body = Closed ->
    net 1%nat = Reached chain1 a1 -> server_accepted w c st chain1 = true ->
    (a1 id body = Closed /\ r = SClosed \/ a1 id body = Failed /\ r = SError \/ exists z b, a1 id body = Replied z b /\ r = SAnswer z b) ->
    exchange w c st id net body r [mk_sent chain id body; mk_sent chain1 id body]
      (if cl_verify c then [] else match hd_error chain with Some x => [x] | None => [] end) (if cl_verify c then None else hd_error chain1).

Lemma accepted_same w c c' st chain : cl_verify c' = cl_verify c -> cl_verify_host c' = cl_verify_host c -> cl_host c' = cl_host c ->
  server_accepted w c' st chain = server_accepted w c st chain.
Proof. intros A B D. unfold server_accepted. rewrite A, B, D. reflexivity. Qed.

Lemma exchange_same w c c' st id net body r l lost k : exchange w c st id net body r l lost k ->
  cl_verify c = cl_verify c' -> (forall chain, server_accepted w c st chain = server_accepted w c' st chain) ->
  exchange w c' st id net body r l lost k.
Proof.
  intros X Q SA. destruct X as [[N | (ch & a & N & A)] | chain a r N A R | chain a N A R [N1 | (ch & a1 & N1 & A1)] k | chain a chain1 a1 r N A R N1 A1 R1]; rewrite ?Q.
  - apply XNone. left; assumption.
  - apply XNone. right. exists ch, a. rewrite <- SA. split; assumption.
  - rewrite SA in A. eapply XOne; eassumption.
  - rewrite SA in A. eapply XRetryNone; try eassumption. left; assumption.
  - rewrite SA in A, A1. eapply XRetryNone; try eassumption. right. exists ch, a1. split; assumption.
  - rewrite SA in A, A1. eapply XRetry; eassumption.
Qed.

Lemma send_exchange w net body c id store : fresh c -> cl_ctx c = Some (id, store) ->
  let st := trust_of w (cl_verify c) false store in
  exists r c', send w net body c = (r, c') /\ exchange w c st id net body r (cl_sent c') (cl_lost c') (cl_cert c').
Proof.
  intros (Fc & Fl & Fm & Fs & Fx) E st.
  pose proof (send_once_spec w net body c id store E) as H. cbv zeta in H. rewrite Fl in H. fold st in H.
  unfold send. destruct (send_once w net body c) as [r c1] eqn:E1. destruct H as (V & VH & HH & M & H). rewrite Fm in H, M.
  destruct (net 0%nat) as [|chain a] eqn:N0.
  - destruct H as (-> & S1 & L1). exists SError, c1. split; [reflexivity|]. rewrite S1, L1, Fs, Fx.
    assert (K : cl_cert c1 = None).
    { revert E1. unfold send_once. rewrite E, Fm, N0. intros X; injection X as <-. exact Fc. }
    rewrite K. apply XNone. left; assumption.
  - destruct H as (X1 & LD & H). destruct (server_accepted w c st chain) eqn:SA.
    + destruct H as (R & S1 & K). rewrite Fs in S1. cbn [app] in S1.
      destruct (a id body) as [| |z b] eqn:A.
      * subst r.
        pose proof (send_once_spec w net body c1 id st X1) as H2. cbv zeta in H2.
        rewrite V, LD, Bool.orb_false_r in H2. rewrite M in H2.
        assert (T : trust_of w (cl_verify c) (cl_verify c) st = st) by (unfold st; apply trust_again). rewrite T in H2.
        destruct (send_once w net body c1) as [r2 c2] eqn:E2. destruct H2 as (V2 & VH2 & HH2 & M2 & H2).
        exists r2, c2. split; [reflexivity|].
        assert (C1 : cl_cert c1 = if cl_verify c then None else hd_error chain) by (destruct (cl_verify c); destruct K as (K & _); [congruence | assumption]).
        assert (L1 : cl_lost c1 = []) by (destruct (cl_verify c); destruct K as (_ & K); rewrite K, Fx; [|rewrite Fc]; reflexivity).
        destruct (net 1%nat) as [|chain1 a1] eqn:N1.
        -- destruct H2 as (-> & S2 & L2). rewrite S2, L2, S1, L1. eapply XRetryNone; try eassumption. left; assumption.
        -- destruct H2 as (_ & _ & H2). rewrite (accepted_same w c c1) in H2 by assumption.
           destruct (server_accepted w c st chain1) eqn:SA1.
           ++ destruct H2 as (R2 & S2 & K2). rewrite S2, S1. cbn [app].
              assert (KK : cl_cert c2 = (if cl_verify c then None else hd_error chain1) /\
                cl_lost c2 = if cl_verify c then [] else match hd_error chain with Some x => [x] | None => [] end).
              { destruct (cl_verify c); destruct K2 as (K2 & L2); rewrite K2, L2, L1; split; try assumption; try reflexivity. rewrite C1. reflexivity. }
              destruct KK as (KK & LL). rewrite KK, LL. eapply XRetry; try eassumption.
              destruct (a1 id body) as [| |z b]; [left | right; left | right; right]; try (split; [reflexivity | assumption]).
              exists z, b. split; [reflexivity | assumption].
           ++ destruct H2 as (-> & S2 & L2). rewrite S2, L2, S1, L1. eapply XRetryNone; try eassumption.
              right. exists chain1, a1. split; assumption.
      * subst r. exists SError, c1. split; [reflexivity|]. rewrite S1.
        assert (KK : cl_cert c1 = (if cl_verify c then None else hd_error chain) /\ cl_lost c1 = []).
        { destruct (cl_verify c); destruct K as (K & L); rewrite K, L, Fx; split; try reflexivity; try assumption. rewrite Fc. reflexivity. }
        destruct KK as (-> & ->). eapply XOne; try eassumption. left. split; [assumption | reflexivity].
      * subst r. exists (SAnswer z b), c1. split; [reflexivity|]. rewrite S1.
        assert (KK : cl_cert c1 = (if cl_verify c then None else hd_error chain) /\ cl_lost c1 = []).
        { destruct (cl_verify c); destruct K as (K & L); rewrite K, L, Fx; split; try reflexivity; try assumption. rewrite Fc. reflexivity. }
        destruct KK as (-> & ->). eapply XOne; try eassumption. right. exists z, b. split; [assumption | reflexivity].
    + destruct H as (-> & S1 & L1). exists SError, c1. split; [reflexivity|]. rewrite S1, L1, Fs, Fx.
      assert (K : cl_cert c1 = None).
      { revert E1. unfold send_once. rewrite E, Fm, N0. cbv zeta. unfold load_certs. rewrite Fl. fold st.
        change (if cl_verify c then store ++ tw_system w else store) with st.
        match goal with |- context [server_accepted w ?cc st chain] => replace (server_accepted w cc st chain) with (server_accepted w c st chain) by reflexivity end.
        rewrite SA. cbn [negb]. intros X; injection X as <-. exact Fc. }
      rewrite K. apply XNone. right. exists chain, a. split; assumption.
Qed.

(** ** The two functions *)

Lemma post_request_cases w net key cert host verify body :
  (~ can_connect w cert key /\ httplib_post_request w net key cert host verify body = (((-1)%Z, [], None), mk_trace [] [])) \/
  (exists id r l lost k, shows w cert key id /\
    exchange w (ssl_client w host cert key verify false) (trust_of w verify false []) id net body r l lost k /\
    httplib_post_request w net key cert host verify body =
      (match r with SAnswer z b => (z, b, crypto_copycert k) | _ => ((-1)%Z, [], None) end, mk_trace l lost)).
Proof.
  destruct (cl_ctx (ssl_client w host cert key verify false)) as [[id st]|] eqn:E.
  - right. destruct (ctx_shows _ _ _ _ _ _ _ _ E) as (S & ->).
    destruct (send_exchange w net body _ id [] (fresh_client w host cert key verify false) E) as (r & c' & F & X).
    exists id, r, (cl_sent c'), (cl_lost c'), (cl_cert c'). split; [assumption|]. split; [exact X|].
    unfold httplib_post_request. rewrite F. destruct r; reflexivity.
  - left. split.
    + intros (id & S). rewrite (shows_ctx _ host _ _ verify false _ S) in E. discriminate.
    + unfold httplib_post_request, send, send_once. rewrite E. reflexivity.
Qed.

Definition anchors_of (w : tls_world) (ca : bytes) : list cert_view := (match tw_pem w ca with Some l => l | None => [] end) ++ tw_system w.
Lemma post_ca_cases w net key cert ca host body :
  (~ can_connect w cert key /\ httplib_post_request_ca w net key cert ca host body = (((-1)%Z, []), mk_trace [] [])) \/
  (exists id r l lost k, shows w cert key id /\
    exchange w (ssl_client w host cert key true false) (anchors_of w ca) id net body r l lost k /\
    httplib_post_request_ca w net key cert ca host body = (match r with SAnswer z b => (z, b) | _ => ((-1)%Z, []) end, mk_trace l lost)).
Proof.
  destruct (cl_ctx (ssl_client w host cert key true false)) as [[id st]|] eqn:E.
  - right. destruct (ctx_shows _ _ _ _ _ _ _ _ E) as (S & ->).
    assert (E' : cl_ctx (load_ca_cert_store w ca (ssl_client w host cert key true false)) = Some (id, match tw_pem w ca with Some l => l | None => [] end)).
    { unfold load_ca_cert_store. rewrite E. destruct (tw_pem w ca); [reflexivity | exact E]. }
    destruct (send_exchange w net body _ id _ (fresh_store w ca _ (fresh_client w host cert key true false)) E') as (r & c' & F & X).
    exists id, r, (cl_sent c'), (cl_lost c'), (cl_cert c'). split; [assumption|]. split.
    + assert (Q : cl_verify (load_ca_cert_store w ca (ssl_client w host cert key true false)) = true /\
        cl_verify_host (load_ca_cert_store w ca (ssl_client w host cert key true false)) = false).
      { unfold load_ca_cert_store. rewrite E. destruct (tw_pem w ca); split; reflexivity. }
      destruct Q as (Q & Q'). cbv zeta in X. rewrite Q in X. change (trust_of w true false ?s) with (s ++ tw_system w) in X.
      change ((match tw_pem w ca with Some l => l | None => [] end) ++ tw_system w) with (anchors_of w ca) in X.
      assert (SA : forall chain, server_accepted w (load_ca_cert_store w ca (ssl_client w host cert key true false)) (anchors_of w ca) chain =
        server_accepted w (ssl_client w host cert key true false) (anchors_of w ca) chain).
      { intros chain. unfold server_accepted. rewrite Q, Q'. reflexivity. }
      exact (exchange_same _ _ (ssl_client w host cert key true false) _ _ _ _ _ _ _ _ X Q SA).
    + unfold httplib_post_request_ca. rewrite F. destruct r; reflexivity.
  - left. split.
    + intros (id & S). rewrite (shows_ctx _ host _ _ true false _ S) in E. discriminate.
    + unfold httplib_post_request_ca.
      replace (load_ca_cert_store w ca (ssl_client w host cert key true false)) with (ssl_client w host cert key true false)
        by (unfold load_ca_cert_store; rewrite E; destruct (tw_pem w ca); reflexivity).
      unfold send, send_once. rewrite E. reflexivity.
Qed.
