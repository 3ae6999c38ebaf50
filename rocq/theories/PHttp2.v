(** Findings about the HTTP wrapper and the theorems about starting a server. *)
From Verif Require Import Base PBase MSerialize MHttp SHttp PHttp.
From Coq Require Import Lia.
Open Scope N_scope.

Definition quiet_handle : handle := fun _ _ => Answers 200 plain_text (s2b "voucher").
Definition odd_path : bytes := s2b "/Xwell-known/brski/voucher_status".
Definition post_to (p : bytes) : request := mk_request (s2b "POST") p [] [].

Lemma lines_ok hdr : forallb (fun e => negb (has_crlf (fst e)) && negb (has_crlf (snd e))) hdr = true -> Forall line_ok hdr.
Proof.
  intro H. rewrite forallb_forall in H. apply Forall_forall. intros e He. specialize (H e He). apply andb_prop in H as [A B].
  apply Bool.negb_true_iff in A, B. split; apply crlf_sendable; assumption.
Qed.

Lemma registers cp routes : regex_ok cp -> table_ok routes -> exists s, register_routes cp no_handlers routes = Some (0%Z, s).
Proof. intros Hcp T. destruct (register_ok cp Hcp routes no_handlers T) as (s & R & _). exists s. exact R. Qed.

(** A path that is no route's is served. *)
Lemma path_refuted : exists routes req, table_ok routes /\ Forall (fun r => rq_path req <> rt_path r) routes /\
  forall cp s, regex_ok cp -> register_routes cp no_handlers routes = Some (0%Z, s) ->
    rs_status (process_request s req) = 200%Z /\ rs_body (process_request s req) = s2b "masa_voucher_status".
Proof.
  exists (setup_masa_routes quiet_handle), (post_to odd_path). split; [apply masa_table|]. split.
  - repeat (apply Forall_cons; [discriminate|]). apply Forall_nil.
  - intros cp s Hcp R.
    assert (F : first_route (setup_masa_routes quiet_handle) (post_to odd_path) (mk_route PATH_BRSKI_VOUCHER_STATUS POST (named_handler (s2b "masa_voucher_status") 200))) by (apply find_first; reflexivity).
    destruct (answered_spec cp _ s _ _ 200 plain_text (s2b "masa_voucher_status") CT Hcp (masa_table _) R F eq_refl) as (A & B & _).
    + apply lines_ok; reflexivity.
    + split; [exact A|exact B].
Qed.

(** A route whose method is HEAD is accepted and never served. *)
Lemma silent_refuted : exists routes req r, In r routes /\ rt_method r = HEAD /\ rq_method req = s2b "HEAD" /\ rq_path req = rt_path r /\
  forall cp, exists s, register_routes cp no_handlers routes = Some (0%Z, s) /\ rs_status (process_request s req) = 404%Z.
Proof.
  exists [mk_route (s2b "/a") HEAD quiet_handle], (mk_request (s2b "HEAD") (s2b "/a") [] []), (mk_route (s2b "/a") HEAD quiet_handle).
  split; [left; reflexivity|]. split; [reflexivity|]. split; [reflexivity|]. split; [reflexivity|].
  intro cp. exists no_handlers. split; reflexivity.
Qed.

(** Of two routes for the same method and path the second is never served. *)
Lemma second_refuted : exists routes req r, table_ok routes /\ In r routes /\ serves r req /\ rq_path req = rt_path r /\
  forall cp s, regex_ok cp -> register_routes cp no_handlers routes = Some (0%Z, s) -> asks r req = Answers 200 plain_text (s2b "voucher") /\ rs_body (process_request s req) = s2b "other".
Proof.
  set (r1 := mk_route (s2b "/a") POST (fun _ _ => Answers 200 plain_text (s2b "other"))).
  set (r2 := mk_route (s2b "/a") POST quiet_handle).
  exists [r1; r2], (post_to (s2b "/a")), r2.
  assert (T : table_ok [r1; r2]) by (repeat (apply Forall_cons; [split; [apply plainb_ok; reflexivity|discriminate]|]); apply Forall_nil).
  split; [exact T|]. split; [right; left; reflexivity|]. split; [apply servesb_iff; reflexivity|]. split; [reflexivity|].
  intros cp s Hcp R. split; [reflexivity|].
  assert (F : first_route [r1; r2] (post_to (s2b "/a")) r1) by (apply find_first; reflexivity).
  destruct (answered_spec cp _ s _ _ 200 plain_text (s2b "other") CT Hcp T R F eq_refl) as (_ & B & _); [|exact B].
  apply lines_ok; reflexivity.
Qed.

(** Names that differ in case are not joined. *)
Lemma case_refuted : exists lines k, map_at k (get_request_header (mk_request (s2b "POST") [] (arriving lines) [])) <> Some (joined (values_ci k lines)) /\ (1 < List.length (values_ci k lines))%nat.
Proof.
  exists [(s2b "Accept", s2b "text/plain"); (s2b "accept", s2b "application/json")], (s2b "Accept").
  split; [vm_compute; discriminate|vm_compute; lia].
Qed.

Lemma headers_joined lines m p b k :
  map_at k (get_request_header (mk_request m p (arriving lines) b)) = match values k lines with [] => None | vs => Some (joined vs) end.
Proof.
  rewrite request_header_spec. cbn [rq_headers]. unfold values at 1.
  rewrite (arriving_filter (fun n => beqb k n)); [unfold given; fold (values k lines); destruct (values k lines); reflexivity|].
  intros a c A C. apply beqb_eq in A, C. unfold same_name. congruence.
Qed.

(** Every error of a handler is sent with two content types. *)
Lemma errors_never_plain cp routes s req r st hdr body : regex_ok cp -> table_ok routes -> register_routes cp no_handlers routes = Some (0%Z, s) ->
  first_route routes req r -> asks r req = Answers st hdr body -> Forall line_ok hdr -> (400 <= st)%Z ->
  values_ci CT (rs_headers (process_request s req)) = [own_type hdr; s2b "text/plain"].
Proof.
  intros Hcp T R F A L G. destruct (answered_spec cp routes s req r st hdr body CT Hcp T R F A L) as (_ & _ & V).
  rewrite beqb_refl in V. apply Z.leb_le in G. rewrite G in V. exact V.
Qed.

Definition cms_type : smap := [(CT, s2b "application/voucher-cms+json")].
Definition failing_handle : handle := fun _ _ => Answers 400 cms_type [].
Lemma plain_refuted : exists routes req r st body, table_ok routes /\ first_route routes req r /\ (exists hdr, asks r req = Answers st hdr body) /\ (400 <= st)%Z /\
  forall cp s, regex_ok cp -> register_routes cp no_handlers routes = Some (0%Z, s) ->
    values_ci CT (rs_headers (process_request s req)) = [s2b "application/voucher-cms+json"; s2b "text/plain"] /\ ~ plain_error (process_request s req).
Proof.
  set (rs := setup_registrar_routes failing_handle quiet_handle).
  set (r := mk_route PATH_BRSKI_REQUESTVOUCHER POST failing_handle).
  exists rs, (post_to PATH_BRSKI_REQUESTVOUCHER), r, 400%Z, [].
  assert (F : first_route rs (post_to PATH_BRSKI_REQUESTVOUCHER) r) by (apply find_first; reflexivity).
  split; [apply registrar_table|]. split; [exact F|]. split; [exists cms_type; reflexivity|]. split; [lia|].
  intros cp s Hcp R.
  assert (V := errors_never_plain cp rs s _ r 400 cms_type [] Hcp (registrar_table _ _) R F eq_refl).
  rewrite V; [|apply lines_ok; reflexivity|lia]. split; [reflexivity|].
  unfold plain_error. rewrite V; [discriminate|apply lines_ok; reflexivity|lia].
Qed.

(** A handler's failure -1 is sent as success. *)
Lemma status_refuted : exists routes req r hdr body, table_ok routes /\ first_route routes req r /\ asks r req = Answers (-1) hdr body /\
  forall cp s, regex_ok cp -> register_routes cp no_handlers routes = Some (0%Z, s) -> rs_status (process_request s req) = 200%Z.
Proof.
  set (r := mk_route (s2b "/a") POST (fun _ _ => Answers (-1) plain_text [])).
  assert (T : table_ok [r]) by (repeat (apply Forall_cons; [split; [apply plainb_ok; reflexivity|discriminate]|]); apply Forall_nil).
  assert (F : first_route [r] (post_to (s2b "/a")) r) by (apply find_first; reflexivity).
  exists [r], (post_to (s2b "/a")), r, plain_text, []. split; [exact T|]. split; [exact F|]. split; [reflexivity|].
  intros cp s Hcp R. destruct (answered_spec cp _ s _ _ (-1) plain_text [] CT Hcp T R F eq_refl) as (A & _ & _); [|exact A].
  apply lines_ok; reflexivity.
Qed.

Lemma answer_sent cp routes s req r st hdr body : regex_ok cp -> table_ok routes -> register_routes cp no_handlers routes = Some (0%Z, s) ->
  first_route routes req r -> asks r req = Answers st hdr body -> Forall line_ok hdr -> st <> (-1)%Z ->
  let w := process_request s req in
  rs_status w = st /\ rs_body w = sent_body req st body /\
  (forall k, ~ same_name k CT -> values_ci k (rs_headers w) = values_ci k hdr) /\
  ((st < 400)%Z -> forall c, map_at CT hdr = Some c -> values_ci CT (rs_headers w) = [c]).
Proof.
  intros Hcp T R F A L N. cbv zeta.
  destruct (answered_spec cp routes s req r st hdr body CT Hcp T R F A L) as (E1 & E2 & V).
  split; [rewrite E1; unfold final_status; destruct (st =? -1)%Z eqn:E; [apply Z.eqb_eq in E; contradiction|reflexivity]|].
  split; [exact E2|]. split.
  - intros k Hk. destruct (answered_spec cp routes s req r st hdr body k Hcp T R F A L) as (_ & _ & W). rewrite W.
    destruct (beqb (map tolower k) (map tolower CT)) eqn:B; [|reflexivity]. apply beqb_eq in B. contradiction.
  - intros G c Hc. rewrite beqb_refl in V. rewrite V. unfold own_type. rewrite Hc.
    destruct (400 <=? st)%Z eqn:B; [apply Z.leb_le in B; lia|reflexivity].
Qed.

(** ** Starting *)

Lemma start_listen_refuted : exists cert key routes listen, table_ok routes /\ (forall s, listen s = Some false) /\
  forall cp, regex_ok cp -> httplib_start cp (Some cert) (Some key) true routes listen = Ok (0%Z, true).
Proof.
  exists (s2b "/certs/masa.crt"), (s2b "/certs/masa.key"), (setup_masa_routes quiet_handle), (fun _ => Some false).
  split; [apply masa_table|]. split; [reflexivity|]. intros cp Hcp. unfold httplib_start. cbn [negb].
  destruct (register_ok cp Hcp _ no_handlers (masa_table quiet_handle)) as (s & -> & _). reflexivity.
Qed.

Lemma start_throw_refuted : exists cp cert key routes listen, httplib_start cp (Some cert) (Some key) true routes listen = UB BadFree.
Proof. exists dot_compile, [], [], (setup_masa_routes quiet_handle), (fun _ => None). reflexivity. Qed.

Lemma start_exact cp cert key new_ok routes listen k : httplib_start cp cert key new_ok routes listen = UB k <->
  k = BadFree /\ cert <> None /\ key <> None /\
  (new_ok = false \/ register_routes cp no_handlers routes = None \/ exists s, register_routes cp no_handlers routes = Some (0%Z, s) /\ listen s = None).
Proof.
  assert (Z0 : forall routes s0 z s, register_routes cp s0 routes = Some (z, s) -> z = 0%Z \/ z = (-1)%Z).
  { induction routes0 as [|r l IH]; cbn [register_routes]; intros s0 z s.
    - intro H. injection H as <- _. left. reflexivity.
    - destruct (is_served (rt_method r)); [destruct (cp (rt_path r)); [apply IH|discriminate]|].
      destruct (is_silent (rt_method r)); [apply IH|]. intro H. injection H as <- _. right. reflexivity. }
  unfold httplib_start. destruct cert as [c|]; [|split; [discriminate|intuition congruence]].
  destruct key as [q|]; [|split; [discriminate|intuition congruence]].
  destruct new_ok; cbn [negb].
  2:{ split; [intro H; injection H as <-; repeat split; try discriminate; auto|intros [-> _]; reflexivity]. }
  destruct (register_routes cp no_handlers routes) as [[z s]|] eqn:R.
  - destruct (Z0 _ _ _ _ R) as [-> | ->]; cbn [Z.ltb Z.compare].
    + destruct (listen s) eqn:L.
      * split; [discriminate|]. intros (_ & _ & _ & [H|[H|(s' & H & L')]]); congruence.
      * split; [intro H; injection H as <-; repeat split; try discriminate; right; right; exists s; auto|intros [-> _]; reflexivity].
    + split; [discriminate|]. intros (_ & _ & _ & [H|[H|(s' & H & L')]]); congruence.
  - split; [intro H; injection H as <-; repeat split; try discriminate; auto|intros [-> _]; reflexivity].
Qed.

Lemma start_result cp cert key new_ok routes listen z set : httplib_start cp cert key new_ok routes listen = Ok (z, set) ->
  (z = 0%Z /\ set = true) \/ (z = (-1)%Z /\ set = false).
Proof.
  unfold httplib_start. destruct cert; [|intro H; injection H as <- <-; auto]. destruct key; [|intro H; injection H as <- <-; auto].
  destruct (negb new_ok); [discriminate|]. destruct (register_routes _ _ _) as [[y s]|]; [|discriminate].
  destruct (y <? 0)%Z; [intro H; injection H as <- <-; auto|]. destruct (listen s); [|discriminate]. intro H; injection H as <- <-; auto.
Qed.

Lemma start_zero cp cert key routes listen : regex_ok cp -> table_ok routes -> (forall s, listen s <> None) ->
  exists z set, httplib_start cp cert key true routes listen = Ok (z, set) /\ (z = 0%Z <-> cert <> None /\ key <> None).
Proof.
  intros Hcp T L. unfold httplib_start. destruct cert as [c|]; [|exists (-1)%Z, false; split; [reflexivity|split; [discriminate|intuition congruence]]].
  destruct key as [q|]; [|exists (-1)%Z, false; split; [reflexivity|split; [discriminate|intuition congruence]]].
  cbn [negb]. destruct (register_ok cp Hcp routes no_handlers T) as (s & -> & _). cbn [Z.ltb Z.compare].
  destruct (listen s) eqn:E; [|destruct (L s E)]. exists 0%Z, true. split; [reflexivity|]. split; [split; discriminate|reflexivity].
Qed.
