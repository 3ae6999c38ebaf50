(** Requests over TLS and HTTP give what the handlers give. *)
From Coq Require Import ZifyBool ZifyNat ZifyN.
From Verif Require Import Base PBase MSerialize MVoucher MCrypto MRequest MHeap MHandlers MHttp SBase64 SHeap SArray SVoucher SRequest SHandlers SHttp PHttp PHttp2 MTls STls MWire SWire PWire PWire2 PWire3 PWire4 PWire5 PWire6 MLink.
Open Scope N_scope.

(** ** The servers *)

Lemma register_posts cp : forall routes s z s', register_routes cp s routes = Some (z, s') -> forall f h, In (f, h) (sv_post s') ->
  In (f, h) (sv_post s) \/ exists r, In r routes /\ rt_method r = POST /\ cp (rt_path r) = Some f /\ h = rt_handle r.
Proof.
  induction routes as [|r routes IH]; cbn [register_routes]; intros s z s' E f h I.
  - injection E as _ <-. left. exact I.
  - destruct (is_served (rt_method r)).
    + destruct (cp (rt_path r)) as [g|] eqn:C; [|discriminate]. destruct (IH _ _ _ E f h I) as [J|(q & J & Q)]; [|right; exists q; split; [right; exact J|exact Q]].
      unfold add_route in J. destruct (rt_method r =? GET)%Z; [left; exact J|]. destruct (Z.eqb_spec (rt_method r) POST) as [M|M].
      * cbn [sv_post] in J. apply in_app_iff in J as [J|[J|[]]]; [left; exact J|]. injection J as <- <-. right. exists r. split; [left; reflexivity|]. split; [exact M|]. split; [exact C|reflexivity].
      * left. destruct (rt_method r =? PUT)%Z; [exact J|]. destruct (rt_method r =? DELETE)%Z; [exact J|]. destruct (rt_method r =? OPTIONS)%Z; exact J.
    + destruct (is_silent (rt_method r)); [|injection E as _ <-; left; exact I].
      destruct (IH _ _ _ E f h I) as [J|(q & J & Q)]; [left; exact J|right; exists q; split; [right; exact J|exact Q]].
Qed.

Lemma usual_route cp routes s req : regex_ok cp -> table_ok routes -> register_routes cp no_handlers routes = Some (0%Z, s) ->
  (forall r, In r routes -> rt_method r = POST -> dot_match (rt_path r) (rq_path req) = true -> usual_answer (rt_handle r (get_request_header req) (rq_body req))) -> usual_server s req.
Proof.
  intros C T R H. unfold usual_server. apply Forall_forall. intros [f h] I. cbn [fst snd]. intro M.
  destruct (register_posts cp routes no_handlers _ _ R f h I) as [[]|(r & J & P & Q & ->)]. apply H; [exact J|exact P|].
  unfold table_ok in T. rewrite Forall_forall in T. destruct (C _ (proj1 (T r J))) as (g & G & K). rewrite Q in G. injection G as <-. apply dot_match_iff, K, M.
Qed.

Lemma line_good k v : plain_nameb k && plain_valueb v && (blen k + blen v + 4 <=? 8192) = true -> plain_line (k, v) \/ quiet_line (k, v).
Proof. intro H. left. apply andb_prop in H as [H C]. apply andb_prop in H as [A B]. split; [apply plain_nameb_ok, A|]. split; [apply plain_valueb_ok, B|]. cbn [fst snd]. lia. Qed.
Lemma type_usual st v body : plain_nameb (s2b "Content-Type") && plain_valueb v && (blen (s2b "Content-Type") + blen v + 4 <=? 8192) = true -> blen body <= SIZE_MAX ->
  usual_answer (Answers st [(s2b "Content-Type", v)] body).
Proof.
  intros H B. cbn [usual_answer]. split; [apply Forall_cons; [apply line_good, H|apply Forall_nil]|]. split; [|exact B].
  apply Forall_cons; [|apply Forall_nil]. repeat (apply Forall_cons; [discriminate|]). apply Forall_nil.
Qed.

Lemma arrived_path host port path ctype body cn : rq_path (arrived host port path ctype body cn) = path.
Proof. reflexivity. Qed.
Lemma arrived_body host port path ctype body cn : rq_body (arrived host port path ctype body cn) = body.
Proof. reflexivity. Qed.

Lemma path_good p : negb (beqb p []) && forallb (fun c => (0 <? c) && (c <? 256) && negb (existsb (N.eqb c) [9; 35; 37; 63])) p && (3 * blen p <=? 8000) = true -> plain_path p.
Proof.
  intros H. apply andb_prop in H as [H C]. apply andb_prop in H as [A B]. split; [intros ->; discriminate|]. split; [|lia]. rewrite forallb_forall in B. apply Forall_forall. intros c I.
  specialize (B c I). apply andb_prop in B as [B E]. split; [lia|].
  intro J. apply Bool.negb_true_iff in E. assert (X : existsb (N.eqb c) [9; 35; 37; 63] = true) by (apply existsb_exists; exists c; split; [exact J|apply N.eqb_refl]). congruence.
Qed.
Lemma voucher_path_ok : plain_path PATH_BRSKI_REQUESTVOUCHER.
Proof. apply path_good. vm_compute. reflexivity. Qed.
Lemma voucher_type_ok : type_ok voucher_cms.
Proof. split; [apply plain_valueb_ok; vm_compute; reflexivity|]. split; [vm_compute; discriminate|]. split; intros [r E]; discriminate. Qed.

(** One exchange with the first route of a table. *)
Lemma exchange_routed cp routes s r cn sp cpk host port path st hdr body answer : regex_ok cp -> table_ok routes -> register_routes cp no_handlers routes = Some (0%Z, s) ->
  destination_ok host port -> conn_ok cn -> plain_path path -> blen body <= SIZE_MAX -> (101 <= st <= 999)%Z -> st <> 204%Z ->
  let req := arrived host port path voucher_cms body cn in
  first_route routes req r -> asks r req = Answers st hdr answer -> usual_answer (Answers st hdr answer) -> usual_server s req ->
  exchange_over cn s sp cpk (client_request host port path voucher_cms body) = Replied st (sent_text st answer).
Proof.
  intros C T R D CO PP B S NC req F A U US.
  destruct (exchange_answered cn s sp cpk host port path voucher_cms body D voucher_type_ok PP B CO US) as [X _]. fold req in X. cbv zeta in X.
  assert (L : Forall line_ok hdr).
  { destruct U as (U1 & _). eapply Forall_impl; [|exact U1]. intros e Q. exact (proj1 (usual_short e Q)). }
  destruct (answer_sent cp routes s req r st hdr answer C T R F A L) as (E1 & E2 & _); [lia|]. cbv zeta in E1, E2. rewrite E1, E2 in X. rewrite X by exact S. f_equal.
  unfold received. destruct (Z.eqb_spec st 204) as [Q|Q]; [contradiction|]. unfold sent_body, req, arrived, sent_text. cbn [rq_method]. change (beqb (s2b "POST") (s2b "HEAD")) with false. reflexivity.
Qed.

Lemma masa_exchange cp o w c ld h host port cn sp cpk body st r l' h' : regex_ok cp -> destination_ok host port -> conn_ok cn -> blen body <= SIZE_MAX ->
  masa_requestvoucher o w c ld h body = Ok (st, r, l', h') -> blen r <= SIZE_MAX -> (101 <= st <= 999)%Z -> st <> 204%Z ->
  exists s, (forall id, masa_serving cp o w c ld h id body = Some s) /\
    exchange_over cn s sp cpk (client_request host port PATH_BRSKI_REQUESTVOUCHER voucher_cms body) = Replied st (sent_text st r).
Proof.
  intros C D CO B E L S NC. pose proof (masa_table (masa_handle o w c ld h)) as T. destruct (registers cp _ C T) as (s & R). exists s.
  split; [intro id; unfold masa_serving, registered; rewrite E, R; replace (SIZE_MAX <? blen r) with false by lia; reflexivity|].
  set (req := arrived host port PATH_BRSKI_REQUESTVOUCHER voucher_cms body cn).
  assert (A : asks (mk_route PATH_BRSKI_REQUESTVOUCHER POST (masa_handle o w c ld h)) req = Answers st plain_text r) by (unfold asks, masa_handle; cbn [rt_handle]; unfold req; rewrite arrived_body, E; reflexivity).
  assert (U : usual_answer (Answers st plain_text r)) by (apply type_usual; [vm_compute; reflexivity|exact L]).
  eapply exchange_routed; [exact C|exact T|exact R|exact D|exact CO|exact voucher_path_ok|exact B|exact S|exact NC| |exact A|exact U|].
  - apply masa_own; [left; reflexivity|reflexivity|reflexivity].
  - eapply usual_route; [exact C|exact T|exact R|]. intros q I P M. unfold req in M. rewrite arrived_path in M.
    unfold setup_masa_routes in I. destruct I as [<-|I]; [change (usual_answer (asks (mk_route PATH_BRSKI_REQUESTVOUCHER POST (masa_handle o w c ld h)) req)); rewrite A; exact U|].
    repeat (destruct I as [<-|I]; [vm_compute in M; discriminate M|]). destruct I.
Qed.

Lemma registrar_exchange cp o w c post h enroll peer host port cn sp cpk body st r h' : regex_ok cp -> destination_ok host port -> conn_ok cn -> blen body <= SIZE_MAX ->
  registrar_requestvoucher o w c post h peer body = Ok (st, r, h') -> blen r <= SIZE_MAX -> (101 <= st <= 999)%Z -> st <> 204%Z ->
  exists s, registrar_serving cp o w c post h enroll peer body = Some s /\
    exchange_over cn s sp cpk (client_request host port PATH_BRSKI_REQUESTVOUCHER voucher_cms body) = Replied st (sent_text st r).
Proof.
  intros C D CO B E L S NC. pose proof (registrar_table (registrar_handle o w c post h peer) enroll) as T. destruct (registers cp _ C T) as (s & R). exists s.
  split; [unfold registrar_serving, registered; rewrite E, R; replace (SIZE_MAX <? blen r) with false by lia; reflexivity|].
  set (req := arrived host port PATH_BRSKI_REQUESTVOUCHER voucher_cms body cn).
  assert (A : asks (mk_route PATH_BRSKI_REQUESTVOUCHER POST (registrar_handle o w c post h peer)) req = Answers st voucher_type r) by (unfold asks, registrar_handle; cbn [rt_handle]; unfold req; rewrite arrived_body, E; reflexivity).
  assert (U : usual_answer (Answers st voucher_type r)) by (apply type_usual; [vm_compute; reflexivity|exact L]).
  eapply exchange_routed; [exact C|exact T|exact R|exact D|exact CO|exact voucher_path_ok|exact B|exact S|exact NC| |exact A|exact U|].
  - apply registrar_own; [left; reflexivity|reflexivity|reflexivity].
  - eapply usual_route; [exact C|exact T|exact R|]. intros q I P M. unfold req in M. rewrite arrived_path in M.
    unfold setup_registrar_routes in I. destruct I as [<-|I]; [change (usual_answer (asks (mk_route PATH_BRSKI_REQUESTVOUCHER POST (registrar_handle o w c post h peer)) req)); rewrite A; exact U|].
    repeat (destruct I as [<-|I]; [vm_compute in M; discriminate M|]). destruct I.
Qed.

(** ** The clients *)

Definition linked_reply (tw : tls_world) (ctx : server_ctx) (sv : serving) (ways : nat -> way) (host : bytes) (port : Z) (id : option cert_view) (body : bytes) : reply :=
  if SIZE_MAX <? blen body then Failed
  else if negb (ssl_accepts tw ctx (match id with Some v => [v] | None => [] end)) then Failed
  else match sv id body with
       | None => Failed
       | Some s => exchange_over (wy_conn (ways 0%nat)) s (wy_server_pick (ways 0%nat)) (wy_client_pick (ways 0%nat)) (client_request host port PATH_BRSKI_REQUESTVOUCHER voucher_cms body)
       end.
Lemma post_linked tw ctx sv ways host port key cert id body : shows tw cert key id ->
  match linked_reply tw ctx sv ways host port id body with
  | Replied st b => fst (httplib_post_request tw (voucher_link tw ctx sv ways host port) key cert host false body) = (st, b, crypto_copycert (hd_error (sx_chain ctx)))
  | Failed => fst (httplib_post_request tw (voucher_link tw ctx sv ways host port) key cert host false body) = ((-1)%Z, [], None)
  | Closed => True
  end.
Proof.
  intro S. destruct (linked_reply tw ctx sv ways host port id body) as [| |st b] eqn:E; [exact Logic.I|..]; unfold httplib_post_request, send.
  all: assert (C : ssl_client tw host cert key false false = mk_client false false host (Some (id, [])) None false 0 [] [])
    by (unfold ssl_client; destruct S as [[-> [->| ->]]|(c & -> & C & K & P)]; [reflexivity|destruct cert; reflexivity|]; destruct cert; [contradiction|]; destruct key; [contradiction|]; rewrite P; reflexivity).
  all: rewrite C; unfold send_once at 1; cbn [cl_ctx cl_made]; unfold voucher_link at 1, link at 1; cbn [cl_verify server_accepted negb cl_verify_host cl_host cl_cert cl_loaded cl_made cl_sent cl_lost];
    unfold linked_reply in E; rewrite E; reflexivity.
Qed.
