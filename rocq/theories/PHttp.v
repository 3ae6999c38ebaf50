(** Proofs about the HTTP wrapper. *)
From Verif Require Import Base PBase MSerialize MHttp SHttp.
From Coq Require Import Lia Sorting.Sorted.
Open Scope N_scope.

(** ** The order of names *)

Lemma lex_irrefl f a : lex_lt f a a = false.
Proof. induction a as [|x a IH]; [reflexivity|]. cbn [lex_lt]. rewrite N.ltb_irrefl. exact IH. Qed.

Lemma lex_map f a : forall b, lex_lt f a b = lex_lt (fun c => c) (map f a) (map f b).
Proof. induction a as [|x a IH]; intros [|y b]; cbn [lex_lt map]; [reflexivity..|]. rewrite IH. reflexivity. Qed.

Lemma lex_total f a : forall b, lex_lt f a b = false -> lex_lt f b a = false -> map f a = map f b.
Proof.
  induction a as [|x a IH]; intros [|y b]; cbn [lex_lt map]; intros H H1; [reflexivity|discriminate..|].
  destruct (f x <? f y) eqn:A; [discriminate|]. destruct (f y <? f x) eqn:B; [discriminate|].
  assert (f x = f y) by (apply N.ltb_ge in A; apply N.ltb_ge in B; lia). rewrite H0. f_equal. apply IH; assumption.
Qed.

Lemma lex_neg f a : forall b c, lex_lt f b a = false -> lex_lt f c b = false -> lex_lt f c a = false.
Proof.
  induction a as [|x a IH]; intros b c; [destruct c; reflexivity|].
  destruct b as [|y b]; cbn [lex_lt]; [discriminate|].
  destruct c as [|z c]; cbn [lex_lt]; [discriminate|].
  destruct (f y <? f x) eqn:A; [discriminate|]. destruct (f z <? f y) eqn:B; [intros _ Q; discriminate Q|].
  apply N.ltb_ge in A, B. intros H H1.
  destruct (f z <? f x) eqn:C; [apply N.ltb_lt in C; lia|].
  destruct (f x <? f z) eqn:D; [reflexivity|]. apply N.ltb_ge in C, D.
  assert (E : f x = f y) by lia. assert (E2 : f y = f z) by lia.
  rewrite E in H. rewrite N.ltb_irrefl in H. rewrite E2 in H1. rewrite N.ltb_irrefl in H1.
  eapply IH; eassumption.
Qed.

Lemma ci_same_iff a b : ci_same a b = true <-> same_name a b.
Proof.
  unfold ci_same, ci_lt, same_name. split.
  - intro H. apply andb_prop in H as [H H1]. apply Bool.negb_true_iff in H, H1. apply lex_total; assumption.
  - intro H. rewrite (lex_map _ a b), (lex_map _ b a), H, lex_irrefl. reflexivity.
Qed.

Lemma ci_same_names a b : ci_same a b = beqb (map tolower a) (map tolower b).
Proof.
  apply Bool.eq_iff_eq_true. rewrite ci_same_iff. unfold same_name. symmetry. apply beqb_eq.
Qed.

Lemma ci_lt_same_l a b c : map tolower a = map tolower b -> ci_lt a c = ci_lt b c.
Proof. unfold ci_lt. intro H. rewrite (lex_map _ a), (lex_map _ b), H. reflexivity. Qed.

(** ** The multimap *)

Definition le_name (a b : bytes * bytes) : Prop := ci_lt (fst b) (fst a) = false.

Lemma emplace_in k v l x : In x (mm_emplace k v l) <-> x = (k, v) \/ In x l.
Proof.
  induction l as [|e l IH]; cbn [mm_emplace In]; [intuition|].
  destruct (ci_lt k (fst e)); cbn [In]; [intuition|]. rewrite IH. intuition.
Qed.

Lemma emplace_sorted k v l : StronglySorted le_name l -> StronglySorted le_name (mm_emplace k v l).
Proof.
  induction 1 as [|e l S IH F]; cbn [mm_emplace]; [repeat constructor|].
  destruct (ci_lt k (fst e)) eqn:C.
  - constructor; [constructor; assumption|].
    assert (L : le_name (k, v) e).
    { unfold le_name. cbn [fst]. destruct (ci_lt (fst e) k) eqn:D; [|reflexivity].
      unfold ci_lt in *. assert (Q := lex_neg tolower (fst e) k (fst e)). rewrite lex_irrefl in Q.
      clear -C D. rewrite lex_map in C, D. revert C D. generalize (map tolower k) (map tolower (fst e)). clear.
      intros a. induction a as [|x a IH]; intros [|y b]; cbn [lex_lt]; try discriminate.
      destruct (x <? y) eqn:A; destruct (y <? x) eqn:B; try discriminate; [apply N.ltb_lt in A; apply N.ltb_lt in B; lia|apply IH]. }
    constructor; [exact L|]. eapply Forall_impl; [|exact F]. intros x Hx. unfold le_name in *. cbn [fst] in *. eapply lex_neg; eassumption.
  - constructor; [exact IH|]. apply Forall_forall. intros x Hx. apply emplace_in in Hx as [-> |Hx]; [exact C|].
    rewrite Forall_forall in F. apply F. exact Hx.
Qed.

Lemma arriving_sorted lines : StronglySorted le_name (arriving lines).
Proof.
  unfold arriving. assert (G : forall l m, StronglySorted le_name m -> StronglySorted le_name (fold_left (fun m e => mm_emplace (fst e) (snd e) m) l m)).
  { induction l as [|e l IH]; intros m S; cbn [fold_left]; [exact S|]. apply IH. apply emplace_sorted. exact S. }
  apply G. constructor.
Qed.

(** Inserting adds at the end of the lines of that name, for every way to tell names
    apart that is at least as fine as the order. *)
Lemma emplace_filter (q : bytes -> bool) k v l : (forall a b, q a = true -> q b = true -> same_name a b) -> StronglySorted le_name l ->
  map snd (filter (fun e => q (fst e)) (mm_emplace k v l)) = map snd (filter (fun e => q (fst e)) l) ++ (if q k then [v] else []).
Proof.
  intros Hq. induction 1 as [|e l S IH F]; cbn [mm_emplace filter].
  - cbn [fst]. destruct (q k); reflexivity.
  - destruct (ci_lt k (fst e)) eqn:C; cbn [filter fst].
    + destruct (q k) eqn:K.
      * assert (N : filter (fun e => q (fst e)) (e :: l) = []).
        { assert (NQ : Forall (fun x => q (fst x) = false) (e :: l)).
          { constructor.
            - destruct (q (fst e)) eqn:E; [|reflexivity]. rewrite (ci_lt_same_l k (fst e)) in C by (apply Hq; assumption). unfold ci_lt in C. rewrite lex_irrefl in C. discriminate.
            - eapply Forall_impl; [|exact F]. intros x Hx. destruct (q (fst x)) eqn:E; [|reflexivity].
              rewrite (ci_lt_same_l k (fst x)) in C by (apply Hq; assumption). unfold le_name in Hx. congruence. }
          clear -NQ. induction NQ as [|x r Hx NQ IH]; [reflexivity|]. cbn [filter]. rewrite Hx. exact IH. }
        cbn [filter] in N. rewrite N. reflexivity.
      * rewrite app_nil_r. reflexivity.
    + destruct (q (fst e)); cbn [map app]; rewrite IH; reflexivity.
Qed.

Lemma arriving_filter (q : bytes -> bool) lines : (forall a b, q a = true -> q b = true -> same_name a b) ->
  map snd (filter (fun e => q (fst e)) (arriving lines)) = map snd (filter (fun e => q (fst e)) lines).
Proof.
  intro Hq. unfold arriving.
  assert (G : forall l m, StronglySorted le_name m ->
    map snd (filter (fun e => q (fst e)) (fold_left (fun m e => mm_emplace (fst e) (snd e) m) l m)) =
    map snd (filter (fun e => q (fst e)) m) ++ map snd (filter (fun e => q (fst e)) l)).
  { induction l as [|e l IH]; intros m S; cbn [fold_left]; [rewrite app_nil_r; reflexivity|].
    rewrite IH by (apply emplace_sorted; exact S). rewrite emplace_filter by assumption. rewrite <- app_assoc. f_equal.
    cbn [filter]. destruct (q (fst e)); reflexivity. }
  rewrite G by constructor. reflexivity.
Qed.

(** ** The map *)

Lemma map_at_set k v m k' : map_at k' (map_set k v m) = if beqb k' k then Some v else map_at k' m.
Proof.
  induction m as [|e m IH]; cbn [map_set map_at fst snd]; [reflexivity|].
  destruct (beqb k (fst e)) eqn:E.
  - cbn [map_at fst snd]. destruct (beqb k' k) eqn:K; [reflexivity|].
    apply beqb_eq in E. rewrite <- E, K. reflexivity.
  - destruct (str_lt k (fst e)); cbn [map_at fst snd]; [reflexivity|].
    rewrite IH. destruct (beqb k' (fst e)) eqn:F; [|reflexivity].
    destruct (beqb k' k) eqn:K; [|reflexivity]. apply beqb_eq in F, K. subst k'. rewrite F in E.
    assert (beqb (fst e) (fst e) = true) by (apply beqb_eq; reflexivity). congruence.
Qed.

Lemma joined_snoc vs v : vs <> [] -> joined (vs ++ [v]) = joined vs ++ s2b ", " ++ v.
Proof.
  induction vs as [|a vs IH]; [contradiction|]. intros _. destruct vs as [|b vs].
  - reflexivity.
  - change (joined ((a :: b :: vs) ++ [v])) with (a ++ s2b ", " ++ joined ((b :: vs) ++ [v])).
    rewrite IH by discriminate. change (joined (a :: b :: vs)) with (a ++ s2b ", " ++ joined (b :: vs)).
    rewrite <- !app_assoc. reflexivity.
Qed.

Definition given (vs : list bytes) : option bytes := match vs with [] => None | _ => Some (joined vs) end.

Lemma values_cons k (e : bytes * bytes) l : values k (e :: l) = if beqb k (fst e) then snd e :: values k l else values k l.
Proof. unfold values. cbn [filter]. destruct (beqb k (fst e)); reflexivity. Qed.

Definition header_step (m : smap) (e : bytes * bytes) : smap :=
  match map_at (fst e) m with
  | Some v => map_set (fst e) (v ++ s2b ", " ++ snd e) m
  | None => map_set (fst e) (snd e) m
  end.

Lemma request_header_spec req k : map_at k (get_request_header req) = given (values k (rq_headers req)).
Proof.
  change (get_request_header req) with (fold_left header_step (rq_headers req) []).
  assert (G : forall (l : list (bytes * bytes)) m vs, map_at k m = given vs -> map_at k (fold_left header_step l m) = given (vs ++ values k l)).
  { induction l as [|e l IH]; intros m vs Hm; cbn [fold_left]; [unfold values; cbn [filter map]; rewrite app_nil_r; exact Hm|].
    rewrite values_cons. destruct (beqb k (fst e)) eqn:K.
    - apply beqb_eq in K. replace (vs ++ snd e :: values k l) with ((vs ++ [snd e]) ++ values k l) by (rewrite <- app_assoc; reflexivity). apply IH.
      unfold header_step. rewrite <- K, Hm. destruct vs as [|a vs]; cbn [given].
      + rewrite map_at_set. assert (B : beqb k k = true) by (apply beqb_eq; reflexivity). rewrite B. reflexivity.
      + rewrite map_at_set. assert (B : beqb k k = true) by (apply beqb_eq; reflexivity). rewrite B.
        rewrite <- joined_snoc by discriminate. reflexivity.
    - apply IH. unfold header_step. destruct (map_at (fst e) m); rewrite map_at_set, K; exact Hm. }
  specialize (G (rq_headers req) [] [] eq_refl). exact G.
Qed.

(** ** Registration and dispatch *)

Definition tbl (t : bytes) (s : server) : handlers :=
  if beqb t (s2b "GET") then sv_get s else if beqb t (s2b "POST") then sv_post s
  else if beqb t (s2b "PUT") then sv_put s else if beqb t (s2b "DELETE") then sv_delete s
  else if beqb t (s2b "OPTIONS") then sv_options s else if beqb t (s2b "PATCH") then sv_patch s
  else [].

Lemma method_cases m t : method_text m = Some t ->
  (m = GET /\ t = s2b "GET") \/ (m = POST /\ t = s2b "POST") \/ (m = PUT /\ t = s2b "PUT") \/
  (m = DELETE /\ t = s2b "DELETE") \/ (m = OPTIONS /\ t = s2b "OPTIONS") \/ (m = PATCH /\ t = s2b "PATCH").
Proof.
  unfold method_text. intro H.
  destruct (m =? GET)%Z eqn:A1; [apply Z.eqb_eq in A1; inversion H; auto 10|].
  destruct (m =? POST)%Z eqn:A2; [apply Z.eqb_eq in A2; inversion H; auto 10|].
  destruct (m =? PUT)%Z eqn:A3; [apply Z.eqb_eq in A3; inversion H; auto 10|].
  destruct (m =? DELETE)%Z eqn:A4; [apply Z.eqb_eq in A4; inversion H; auto 10|].
  destruct (m =? OPTIONS)%Z eqn:A5; [apply Z.eqb_eq in A5; inversion H; auto 10|].
  destruct (m =? PATCH)%Z eqn:A6; [apply Z.eqb_eq in A6; inversion H; auto 10|].
  discriminate H.
Qed.

Lemma add_route_tbl s r f t t0 : method_text (rt_method r) = Some t0 ->
  tbl t (add_route s r f) = tbl t s ++ (if beqb t t0 then [(f, rt_handle r)] else []).
Proof.
  intro H. apply method_cases in H. destruct r as [p m h]. cbn [rt_method rt_handle] in *.
  destruct (beqb t t0) eqn:T.
  - apply beqb_eq in T. subst t0.
    destruct H as [[-> ->]|[[-> ->]|[[-> ->]|[[-> ->]|[[-> ->]|[-> ->]]]]]]; reflexivity.
  - rewrite app_nil_r.
    destruct H as [[-> ->]|[[-> ->]|[[-> ->]|[[-> ->]|[[-> ->]|[-> ->]]]]]];
    unfold add_route; cbn [rt_method rt_handle];
    unfold tbl; rewrite ?T; reflexivity.
Qed.

Lemma dispatch_app req res a b : dispatch req res (a ++ b) = match dispatch req res a with Some x => Some x | None => dispatch req res b end.
Proof. induction a as [|[f h] a IH]; cbn [app dispatch]; [reflexivity|]. destruct (f (rq_path req)); [reflexivity|exact IH]. Qed.

Lemma first_cons r routes req q : first_route (r :: routes) req q -> (serves r req /\ q = r) \/ (~ serves r req /\ first_route routes req q).
Proof.
  intros (pre & post & E & S & F). destruct pre as [|p pre]; cbn [app] in E.
  - left. injection E as -> ->. auto.
  - right. injection E as -> ->. inversion F. subst. split; [assumption|]. exists pre, post. auto.
Qed.

Section Tables.
Context (cp : compile) (Hcp : regex_ok cp).

Lemma register_ok : forall routes s, table_ok routes -> exists s', register_routes cp s routes = Some (0%Z, s') /\
  forall req res,
    (forall x, dispatch req res (tbl (asked_method req) s) = Some x -> dispatch req res (tbl (asked_method req) s') = Some x) /\
    (dispatch req res (tbl (asked_method req) s) = None ->
      (forall r, first_route routes req r -> dispatch req res (tbl (asked_method req) s') = Some (run_handle (rt_handle r) req res)) /\
      ((forall r, In r routes -> ~ serves r req) -> dispatch req res (tbl (asked_method req) s') = None)).
Proof.
  induction routes as [|r routes IH]; intros s T.
  - exists s. split; [reflexivity|]. intros req res. split; [auto|]. intro N. split; [|auto].
    intros r (pre & post & E & _). destruct pre; discriminate.
  - inversion T as [|? ? [Hp Hm] T']. subst. destruct (method_text (rt_method r)) as [t0|] eqn:M; [clear Hm|congruence].
    destruct (Hcp _ Hp) as (f & Cf & Hf).
    assert (Sv : is_served (rt_method r) = true).
    { apply method_cases in M. destruct M as [[-> _]|[[-> _]|[[-> _]|[[-> _]|[[-> _]|[-> _]]]]]]; reflexivity. }
    destruct (IH (add_route s r f) T') as (s' & R & Hs'). exists s'. cbn [register_routes]. rewrite Sv, Cf.
    split; [exact R|]. intros req res. specialize (Hs' req res) as [K1 K2].
    rewrite (add_route_tbl s r f _ t0 M) in K1, K2. rewrite dispatch_app in K1, K2.
    split; [intros x Hx; rewrite Hx in K1; apply K1; reflexivity|].
    intro N. rewrite N in K1, K2.
    destruct (beqb (asked_method req) t0) eqn:B.
    + apply beqb_eq in B. cbn [dispatch] in K1, K2.
      destruct (f (rq_path req)) eqn:Fp.
      * assert (S : serves r req) by (split; [congruence|apply Hf; exact Fp]).
        split.
        { intros q Q. apply first_cons in Q as [[_ ->]|[NS _]]; [|contradiction]. apply K1. reflexivity. }
        { intro A. exfalso. eapply A; [left; reflexivity|exact S]. }
      * assert (NS : ~ serves r req) by (intros [_ Mm]; apply Hf in Mm; congruence).
        destruct (K2 eq_refl) as [K3 K4]. split.
        { intros q Q. apply first_cons in Q as [[S _]|[_ Q]]; [contradiction|]. apply K3. exact Q. }
        { intro A. apply K4. intros q Hq. apply A. right. exact Hq. }
    + assert (NS : ~ serves r req) by (intros [Me _]; rewrite M in Me; injection Me as Me; rewrite Me, beqb_refl in B; discriminate).
      destruct (K2 eq_refl) as [K3 K4]. split.
      { intros q Q. apply first_cons in Q as [[S _]|[_ Q]]; [contradiction|]. apply K3. exact Q. }
      { intro A. apply K4. intros q Hq. apply A. right. exact Hq. }
Qed.
End Tables.

Lemma dispatch_empty req res t : dispatch req res (tbl t no_handlers) = None.
Proof. unfold tbl. repeat destruct (beqb _ _); reflexivity. Qed.

Lemma routing_tbl s req res :
  (known_method req /\ routing s req res = match dispatch req res (tbl (asked_method req) s) with None => inl (false, res) | Some (inl r) => inl (true, r) | Some (inr w) => inr w end)
  \/ (~ known_method req /\ routing s req res = inl (false, set_status 400 res)).
Proof.
  unfold routing, known_method, asked_method, tbl.
  destruct (beqb (rq_method req) (s2b "HEAD")) eqn:H.
  - left. split; [left; reflexivity|]. rewrite Bool.orb_true_r. reflexivity.
  - rewrite Bool.orb_false_r. cbn [In].
    destruct (beqb (rq_method req) (s2b "GET")) eqn:A1; [apply beqb_eq in A1; left; auto 10|].
    destruct (beqb (rq_method req) (s2b "POST")) eqn:A2; [apply beqb_eq in A2; left; auto 10|].
    destruct (beqb (rq_method req) (s2b "PUT")) eqn:A3; [apply beqb_eq in A3; left; auto 10|].
    destruct (beqb (rq_method req) (s2b "DELETE")) eqn:A4; [apply beqb_eq in A4; left; auto 10|].
    destruct (beqb (rq_method req) (s2b "OPTIONS")) eqn:A5; [apply beqb_eq in A5; left; auto 10|].
    destruct (beqb (rq_method req) (s2b "PATCH")) eqn:A6; [apply beqb_eq in A6; left; auto 10|].
    right. split; [|reflexivity].
    intros [E|[E|[E|[E|[E|[E|[]]]]]]]; rewrite <- E, beqb_refl in *; discriminate.
Qed.

Lemma serves_known r req : serves r req -> known_method req.
Proof.
  intros [M _]. apply method_cases in M. unfold known_method. cbn [In].
  destruct M as [[_ ->]|[[_ ->]|[[_ ->]|[[_ ->]|[[_ ->]|[_ ->]]]]]]; auto 10.
Qed.

(** ** What is sent *)

Lemma crlf_sendable s : sendable s <-> has_crlf s = false.
Proof.
  unfold sendable, has_crlf. induction (upto_nul s) as [|c l IH]; cbn [existsb]; [split; [reflexivity|constructor]|].
  rewrite Bool.orb_false_iff, <- IH. split.
  - intro F. inversion F as [|? ? [A B] C]. subst. split; [|exact C]. apply Bool.orb_false_iff. split; apply N.eqb_neq; assumption.
  - intros [A B]. apply Bool.orb_false_iff in A as [A1 A2]. apply N.eqb_neq in A1, A2. constructor; auto.
Qed.

Lemma values_ci_emplace q k v l : StronglySorted le_name l ->
  values_ci q (mm_emplace k v l) = values_ci q l ++ (if beqb (map tolower q) (map tolower k) then [v] else []).
Proof.
  intro S. unfold values_ci. apply (emplace_filter (fun n => beqb (map tolower q) (map tolower n))); [|exact S].
  intros a b A B. apply beqb_eq in A, B. unfold same_name. congruence.
Qed.


Lemma set_header_sorted k v r : StronglySorted le_name (rs_headers r) -> StronglySorted le_name (rs_headers (set_header k v r)).
Proof. intro S. unfold set_header. destruct (_ || _)%bool; [exact S|]. cbn [rs_headers]. apply emplace_sorted. exact S. Qed.

Lemma set_header_body k v r : rs_body (set_header k v r) = rs_body r.
Proof. unfold set_header. destruct (_ || _)%bool; reflexivity. Qed.
Lemma set_header_status k v r : rs_status (set_header k v r) = rs_status r.
Proof. unfold set_header. destruct (_ || _)%bool; reflexivity. Qed.

Lemma set_header_values q k v r : StronglySorted le_name (rs_headers r) -> sendable k -> sendable v ->
  values_ci q (rs_headers (set_header k v r)) = values_ci q (rs_headers r) ++ (if beqb (map tolower q) (map tolower k) then [v] else []).
Proof.
  intros S A B. apply crlf_sendable in A, B. unfold set_header. rewrite A, B. cbn [orb rs_headers]. apply values_ci_emplace. exact S.
Qed.

Lemma values_ci_app q (a b : list (bytes * bytes)) : values_ci q (a ++ b) = values_ci q a ++ values_ci q b.
Proof. unfold values_ci. rewrite filter_app, map_app. reflexivity. Qed.

Lemma values_ci_cons q (e : bytes * bytes) l : values_ci q (e :: l) = if beqb (map tolower q) (map tolower (fst e)) then snd e :: values_ci q l else values_ci q l.
Proof. unfold values_ci. cbn [filter]. match goal with |- context [if ?b then e :: _ else _] => destruct b end; reflexivity. Qed.

Lemma set_headers_fold q : forall (hdr : list (bytes * bytes)) r, StronglySorted le_name (rs_headers r) -> Forall line_ok hdr ->
  let r' := fold_left (fun r e => set_header (fst e) (snd e) r) hdr r in
  StronglySorted le_name (rs_headers r') /\ values_ci q (rs_headers r') = values_ci q (rs_headers r) ++ values_ci q hdr.
Proof.
  induction hdr as [|e hdr IH]; intros r S F; cbn [fold_left].
  - split; [exact S|]. rewrite app_nil_r. reflexivity.
  - inversion F as [|? ? [A B] F']. subst. specialize (IH (set_header (fst e) (snd e) r) (set_header_sorted _ _ _ S) F') as [I1 I2].
    split; [exact I1|]. cbv zeta in I2. etransitivity; [exact I2|]. rewrite set_header_values by assumption.
    rewrite <- app_assoc. f_equal. rewrite values_ci_cons. destruct (beqb (map tolower q) (map tolower (fst e))); reflexivity.
Qed.

Lemma sorted_filter (q : bytes * bytes -> bool) l : StronglySorted le_name l -> StronglySorted le_name (filter q l).
Proof.
  induction 1 as [|e l S IH F]; cbn [filter]; [constructor|]. destruct (q e); [|exact IH]. constructor; [exact IH|].
  apply Forall_forall. intros x Hx. apply filter_In in Hx as [Hx _]. rewrite Forall_forall in F. auto.
Qed.

Lemma erase_values q k l : values_ci q (mm_erase k l) = if beqb (map tolower q) (map tolower k) then [] else values_ci q l.
Proof.
  unfold values_ci, mm_erase. induction l as [|e l IH]; cbn [filter]; [destruct (beqb _ _); reflexivity|].
  rewrite ci_same_names. destruct (beqb (map tolower k) (map tolower (fst e))) eqn:K; cbn [negb filter].
  - rewrite IH. apply beqb_eq in K. destruct (beqb (map tolower q) (map tolower k)) eqn:Q; [reflexivity|]. rewrite <- K, Q. reflexivity.
  - destruct (beqb (map tolower q) (map tolower (fst e))) eqn:E; cbn [map]; rewrite IH; [|reflexivity].
    destruct (beqb (map tolower q) (map tolower k)) eqn:Q; [|reflexivity].
    apply beqb_eq in Q, E. rewrite <- Q, E, beqb_refl in K. discriminate.
Qed.


Lemma ct_sendable : sendable CT. Proof. apply crlf_sendable. reflexivity. Qed.
Lemma plain_sendable : sendable (s2b "text/plain"). Proof. apply crlf_sendable. reflexivity. Qed.

Lemma map_at_in k m v : map_at k m = Some v -> In (k, v) m.
Proof.
  induction m as [|e m IH]; cbn [map_at]; [discriminate|]. destruct (beqb k (fst e)) eqn:K.
  - intro H. apply beqb_eq in K. left. destruct e. cbn in *. congruence.
  - intro H. right. auto.
Qed.

Lemma own_sendable hdr : Forall line_ok hdr -> sendable (own_type hdr).
Proof.
  intro F. unfold own_type. destruct (map_at CT hdr) as [c|] eqn:E; [|constructor].
  apply map_at_in in E. rewrite Forall_forall in F. apply F in E. apply E.
Qed.

Lemma set_response_spec body hdr st q : Forall line_ok hdr ->
  let r := set_response body hdr st (mk_response (-1) [] []) in
  rs_status r = st /\ rs_body r = body /\ StronglySorted le_name (rs_headers r) /\
  values_ci q (rs_headers r) = if beqb (map tolower q) (map tolower CT) then [own_type hdr] else values_ci q hdr.
Proof.
  intro F. cbv zeta. unfold set_response, set_status, set_content. cbn [rs_status rs_body rs_headers]. rewrite set_header_body. cbn [rs_body].
  split; [reflexivity|]. split; [reflexivity|].
  destruct (set_headers_fold q hdr (mk_response (-1) [] []) (SSorted_nil _) F) as [S V]. cbv zeta in S, V.
  set (r1 := fold_left _ hdr _) in *.
  assert (S2 : StronglySorted le_name (mm_erase CT (rs_headers r1))) by (apply sorted_filter; exact S).
  split; [apply set_header_sorted; exact S2|].
  fold CT. fold (own_type hdr). rewrite set_header_values; [|exact S2|exact ct_sendable|apply own_sendable; exact F].
  cbn [rs_headers]. rewrite erase_values, V. cbn [values_ci rs_headers filter map app].
  destruct (beqb (map tolower q) (map tolower CT)); [reflexivity|]. apply app_nil_r.
Qed.

Lemma mm_has_values q l : mm_has q l = match values_ci q l with [] => false | _ => true end.
Proof.
  unfold mm_has, values_ci. induction l as [|e l IH]; cbn [existsb filter]; [reflexivity|].
  rewrite ci_same_names, IH. destruct (beqb (map tolower q) (map tolower (fst e))); reflexivity.
Qed.

Lemma if_nil (b : bool) (l : list bytes) : l = l ++ (if b then [] else []).
Proof. destruct b; rewrite app_nil_r; reflexivity. Qed.

(** What [write_response] makes of a response whose headers are in order. *)
Lemma write_spec req r q : StronglySorted le_name (rs_headers r) ->
  let w := write_response req r in
  rs_status w = rs_status r /\ rs_body w = sent_body req (rs_status r) (rs_body r) /\
  values_ci q (rs_headers w) = values_ci q (rs_headers r) ++
    (if beqb (map tolower q) (map tolower CT) then
       (if (400 <=? rs_status r)%Z then [s2b "text/plain"]
        else match values_ci CT (rs_headers r), rs_body r with [], _ :: _ => [s2b "text/plain"] | _, _ => [] end)
     else []).
Proof.
  intro S. cbv zeta. unfold write_response.
  set (r1 := if (400 <=? rs_status r)%Z then error_handler r else r).
  set (r2 := if (_ && _)%bool then _ else r1).
  assert (A : rs_status r1 = rs_status r /\ rs_body r1 = (match rs_body r with [] => if (400 <=? rs_status r)%Z then s2b "Router error" else [] | _ => rs_body r end) /\
    StronglySorted le_name (rs_headers r1) /\
    values_ci CT (rs_headers r1) = values_ci CT (rs_headers r) ++ (if (400 <=? rs_status r)%Z then [s2b "text/plain"] else []) /\
    values_ci q (rs_headers r1) = values_ci q (rs_headers r) ++ (if beqb (map tolower q) (map tolower CT) then (if (400 <=? rs_status r)%Z then [s2b "text/plain"] else []) else [])).
  { unfold r1. destruct (400 <=? rs_status r)%Z.
    - unfold error_handler. set (r0 := if beqb (rs_body r) [] then _ else r).
      assert (H0 : rs_headers r0 = rs_headers r /\ rs_status r0 = rs_status r /\ rs_body r0 = match rs_body r with [] => s2b "Router error" | _ => rs_body r end).
      { unfold r0. clear. destruct (rs_body r) eqn:E; cbn [beqb rs_headers rs_status rs_body]; auto. }
      destruct H0 as (H1 & H2 & H3). fold CT. rewrite set_header_status, set_header_body, H2, H3. split; [reflexivity|]. split; [destruct (rs_body r); reflexivity|].
      assert (S0 : StronglySorted le_name (rs_headers r0)) by (rewrite H1; exact S).
      split; [apply set_header_sorted; exact S0|].
      rewrite !(set_header_values _ CT) by (first [exact S0|exact ct_sendable|exact plain_sendable]). rewrite H1, beqb_refl. auto.
    - split; [reflexivity|]. split; [destruct (rs_body r); reflexivity|]. split; [exact S|]. split; [rewrite app_nil_r; reflexivity|]. apply if_nil. }
  destruct A as (A1 & A2 & A3 & A4 & A5).
  assert (B : rs_status r2 = rs_status r1 /\ rs_body r2 = rs_body r1 /\
    values_ci q (rs_headers r2) = values_ci q (rs_headers r1) ++ (if beqb (map tolower q) (map tolower CT) then match values_ci CT (rs_headers r1), rs_body r1 with [], _ :: _ => [s2b "text/plain"] | _, _ => [] end else [])).
  { unfold r2. fold CT. rewrite mm_has_values. destruct (values_ci CT (rs_headers r1)) as [|x xs]; cbn [negb andb].
    - destruct (rs_body r1) as [|c b] eqn:E; cbn [beqb negb].
      + repeat split; [exact E|]. apply if_nil.
      + rewrite set_header_status, set_header_body. repeat split; [exact E|]. apply set_header_values; [exact A3|exact ct_sendable|exact plain_sendable].
    - repeat split. apply if_nil. }
  destruct B as (B1 & B2 & B3).
  assert (C : values_ci q (rs_headers r2) = values_ci q (rs_headers r) ++
    (if beqb (map tolower q) (map tolower CT) then
       (if (400 <=? rs_status r)%Z then [s2b "text/plain"]
        else match values_ci CT (rs_headers r), rs_body r with [], _ :: _ => [s2b "text/plain"] | _, _ => [] end)
     else [])).
  { rewrite B3, A5, A4, A2, <- app_assoc. f_equal. destruct (beqb (map tolower q) (map tolower CT)); [|reflexivity].
    destruct (400 <=? rs_status r)%Z; [destruct (values_ci CT (rs_headers r)); reflexivity|].
    rewrite app_nil_r. destruct (rs_body r); reflexivity. }
  unfold sent_body. destruct (beqb (rq_method req) (s2b "HEAD")); cbn [rs_status rs_body rs_headers]; (split; [congruence|]); (split; [|exact C]); [reflexivity|congruence].
Qed.

Definition final_status (st : Z) : Z := if (st =? -1)%Z then 200%Z else st.

Lemma final_le st : (400 <=? final_status st)%Z = (400 <=? st)%Z.
Proof. unfold final_status. destruct (st =? -1)%Z eqn:E; [apply Z.eqb_eq in E; subst; reflexivity|reflexivity]. Qed.

(** Requests that a route answers. *)
Lemma answered_spec cp routes s req r st hdr body q : regex_ok cp -> table_ok routes -> register_routes cp no_handlers routes = Some (0%Z, s) ->
  first_route routes req r -> asks r req = Answers st hdr body -> Forall line_ok hdr ->
  let w := process_request s req in
  rs_status w = final_status st /\ rs_body w = sent_body req st body /\
  values_ci q (rs_headers w) = if beqb (map tolower q) (map tolower CT) then own_type hdr :: (if (400 <=? st)%Z then [s2b "text/plain"] else []) else values_ci q hdr.
Proof.
  intros Hcp T R Fr As L.
  destruct (register_ok cp Hcp routes no_handlers T) as (s0 & R0 & D). rewrite R0 in R. injection R as ->.
  set (res := mk_response (-1) [] []).
  destruct (D req res) as [_ D2]. specialize (D2 (dispatch_empty _ _ _)) as [D3 _]. specialize (D3 r Fr).
  assert (K : known_method req) by (destruct Fr as (pre & post & _ & S & _); eapply serves_known; exact S).
  cbv zeta. unfold process_request. fold res. destruct (routing_tbl s req res) as [[_ ->]|[NK _]]; [|contradiction].
  rewrite D3. unfold run_handle. unfold asks in As. rewrite As.
  destruct (set_response_spec body hdr st q L) as (E1 & E2 & E3 & E4). fold res in E1, E2, E3, E4.
  destruct (set_response_spec body hdr st CT L) as (_ & _ & _ & E5). fold res in E5. rewrite beqb_refl in E5.
  set (r1 := set_response body hdr st res) in *. rewrite E1. fold (final_status st).
  set (r2 := if (st =? -1)%Z then set_status 200 r1 else r1).
  assert (Er : rs_status r2 = final_status st /\ rs_headers r2 = rs_headers r1 /\ rs_body r2 = body).
  { unfold r2, final_status. destruct (st =? -1)%Z; auto. }
  destruct Er as (F1 & F2 & F3).
  destruct (write_spec req r2 q) as (W1 & W2 & W3); [rewrite F2; exact E3|].
  rewrite W1, W2, W3, F1, F2, F3, E4, E5, final_le. split; [reflexivity|].
  split; [unfold sent_body; rewrite final_le; reflexivity|].
  destruct (beqb (map tolower q) (map tolower CT)); [destruct (400 <=? st)%Z; reflexivity|apply app_nil_r].
Qed.

Lemma thrown_spec cp routes s req r w : regex_ok cp -> table_ok routes -> register_routes cp no_handlers routes = Some (0%Z, s) ->
  first_route routes req r -> asks r req = Throws w ->
  let res := process_request s req in
  rs_status res = 505%Z /\ rs_body res = sent_body req 505 (match w with Some t => firstn (N.to_nat 8191) (upto_nul t) | None => s2b "Unknown Exception" end) /\
  values_ci CT (rs_headers res) = [s2b "text/plain"; s2b "text/plain"].
Proof.
  intros Hcp T R Fr As.
  destruct (register_ok cp Hcp routes no_handlers T) as (s0 & R0 & D). rewrite R0 in R. injection R as ->.
  set (res := mk_response (-1) [] []).
  destruct (D req res) as [_ D2]. specialize (D2 (dispatch_empty _ _ _)) as [D3 _]. specialize (D3 r Fr).
  assert (K : known_method req) by (destruct Fr as (pre & post & _ & S & _); eapply serves_known; exact S).
  cbv zeta. unfold process_request. fold res. destruct (routing_tbl s req res) as [[_ ->]|[NK _]]; [|contradiction].
  rewrite D3. unfold run_handle. unfold asks in As. rewrite As.
  set (text := match w with Some _ => _ | None => _ end).
  set (r1 := exception_handler w res).
  assert (E1 : r1 = mk_response 505 [(CT, s2b "text/plain")] text) by reflexivity.
  rewrite E1. cbn [rs_status Z.eqb].
  destruct (write_spec req (mk_response 505 [(CT, s2b "text/plain")] text) CT) as (W1 & W2 & W3); [repeat constructor|].
  rewrite W1, W2, W3. repeat split; reflexivity.
Qed.

Lemma unrouted_spec cp routes s req : regex_ok cp -> table_ok routes -> register_routes cp no_handlers routes = Some (0%Z, s) ->
  (forall r, In r routes -> ~ serves r req) ->
  let res := process_request s req in
  (known_method req -> rs_status res = 404%Z) /\ (~ known_method req -> rs_status res = 400%Z) /\
  rs_body res = (if beqb (rq_method req) (s2b "HEAD") then [] else s2b "Router error") /\ plain_error res /\ rs_headers res = [(CT, s2b "text/plain")].
Proof.
  intros Hcp T R Nr.
  destruct (register_ok cp Hcp routes no_handlers T) as (s0 & R0 & D). rewrite R0 in R. injection R as ->.
  set (res := mk_response (-1) [] []).
  destruct (D req res) as [_ D2]. specialize (D2 (dispatch_empty _ _ _)) as [_ D3]. specialize (D3 Nr).
  cbv zeta. unfold process_request. fold res.
  destruct (routing_tbl s req res) as [[K ->]|[K ->]]; [rewrite D3|]; unfold write_response, plain_error; cbn;
  destruct (beqb (rq_method req) _); cbn; repeat split; try reflexivity; intro; contradiction.
Qed.

(** ** A regular expression engine that meets the assumption *)

Fixpoint dot_match (p s : bytes) : bool :=
  match p, s with
  | [], [] => true
  | c :: p, d :: s => (if c =? 46 then negb (d =? 10) && negb (d =? 13) else c =? d) && dot_match p s
  | _, _ => false
  end.
Definition dot_compile : compile := fun p => Some (dot_match p).

Lemma dot_match_iff p : forall s, dot_match p s = true <-> matches p s.
Proof.
  unfold matches. induction p as [|c p IH]; intros [|d s]; cbn [dot_match].
  - split; [constructor|reflexivity].
  - split; [discriminate|inversion 1].
  - split; [discriminate|inversion 1].
  - rewrite Bool.andb_true_iff, IH. split.
    + intros [A B]. constructor; [|exact B]. unfold char_matches. destruct (c =? 46).
      * apply Bool.andb_true_iff in A as [A1 A2]. apply Bool.negb_true_iff in A1, A2. apply N.eqb_neq in A1, A2. auto.
      * apply N.eqb_eq. exact A.
    + intro H. inversion H as [|? ? ? ? A B]. subst. split; [|exact B]. unfold char_matches in A. destruct (c =? 46).
      * destruct A as [A1 A2]. apply N.eqb_neq in A1, A2. rewrite A1, A2. reflexivity.
      * apply N.eqb_eq. exact A.
Qed.

Lemma dot_compile_ok : regex_ok dot_compile.
Proof. intros p _. exists (dot_match p). split; [reflexivity|apply dot_match_iff]. Qed.

(** ** The route tables of the MASA and the registrar *)

Definition servesb (r : route) (req : request) : bool :=
  match method_text (rt_method r) with Some t => beqb t (asked_method req) | None => false end && dot_match (rt_path r) (rq_path req).
Lemma servesb_iff r req : servesb r req = true <-> serves r req.
Proof.
  unfold servesb, serves. rewrite Bool.andb_true_iff, dot_match_iff. destruct (method_text (rt_method r)) as [t|].
  - rewrite beqb_eq. intuition congruence.
  - intuition discriminate.
Qed.

Lemma find_first routes req r : find (fun q => servesb q req) routes = Some r -> first_route routes req r.
Proof.
  induction routes as [|q routes IH]; cbn [find]; [discriminate|]. destruct (servesb q req) eqn:S.
  - intro H. injection H as ->. exists [], routes. split; [reflexivity|]. split; [apply servesb_iff; exact S|constructor].
  - intro H. destruct (IH H) as (pre & post & -> & Sr & F). exists (q :: pre), post. split; [reflexivity|]. split; [exact Sr|].
    constructor; [|exact F]. intro C. apply servesb_iff in C. congruence.
Qed.

Fixpoint has_param (p : bytes) : bool :=
  match p with
  | 47 :: (58 :: _) => true
  | _ :: r => has_param r
  | [] => false
  end.
Lemma has_param_spec p : has_param p = false -> forall a b, p <> a ++ s2b "/:" ++ b.
Proof.
  intros H a b ->. induction a as [|x a IH].
  - vm_compute in H. discriminate.
  - apply IH. cbn [app] in H. remember (a ++ s2b "/:" ++ b) as l. clear -H.
    destruct l as [|y l]; [reflexivity|]. cbn [has_param] in *.
    destruct x as [|x]; [exact H|]. repeat (destruct x as [x|x|]; try exact H).
    destruct y as [|y]; [exact H|]. repeat (destruct y as [y|y|]; try exact H). discriminate.
Qed.
Definition plainb (p : bytes) : bool := forallb (fun c => negb (existsb (N.eqb c) special)) p && negb (has_param p).
Lemma plainb_ok p : plainb p = true -> plain_pattern p.
Proof.
  unfold plainb. intro H. apply andb_prop in H as [A B]. split.
  - apply Forall_forall. intros c Hc I. rewrite forallb_forall in A. specialize (A c Hc). apply Bool.negb_true_iff in A.
    assert (existsb (N.eqb c) special = true) by (apply existsb_exists; exists c; split; [exact I|apply N.eqb_refl]). congruence.
  - apply has_param_spec. apply Bool.negb_true_iff. exact B.
Qed.

Lemma masa_table h : table_ok (setup_masa_routes h).
Proof. repeat (apply Forall_cons; [split; [apply plainb_ok; reflexivity|discriminate]|]). apply Forall_nil. Qed.
Lemma registrar_table h e : table_ok (setup_registrar_routes h e).
Proof. repeat (apply Forall_cons; [split; [apply plainb_ok; reflexivity|discriminate]|]). apply Forall_nil. Qed.

Lemma masa_own h r req : In r (setup_masa_routes h) -> method_text (rt_method r) = Some (asked_method req) -> rq_path req = rt_path r -> first_route (setup_masa_routes h) req r.
Proof.
  intros I M E. apply find_first. destruct req as [m p hs b]. cbn [rq_path] in E. subst p.
  unfold servesb. cbn [rq_path]. set (req := mk_request _ _ _ _) in *. clearbody req.
  unfold setup_masa_routes in I. repeat (destruct I as [<-|I]; [cbn [rt_method] in M; injection M as M; cbn [find rt_method rt_path setup_masa_routes]; rewrite <- M; reflexivity|]). destruct I.
Qed.
Lemma registrar_own h e r req : In r (setup_registrar_routes h e) -> method_text (rt_method r) = Some (asked_method req) -> rq_path req = rt_path r -> first_route (setup_registrar_routes h e) req r.
Proof.
  intros I M E. apply find_first. destruct req as [m p hs b]. cbn [rq_path] in E. subst p.
  unfold servesb. cbn [rq_path]. set (req := mk_request _ _ _ _) in *. clearbody req.
  unfold setup_registrar_routes in I. repeat (destruct I as [<-|I]; [cbn [rt_method] in M; injection M as M; cbn [find rt_method rt_path setup_registrar_routes]; rewrite <- M; reflexivity|]). destruct I.
Qed.
