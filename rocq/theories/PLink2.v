(** The three parties joined by TLS and HTTP behave as when joined directly. *)
From Coq Require Import ZifyBool ZifyNat ZifyN.
From Verif Require Import Base PBase MBase64 MSerialize MVoucher MCrypto MRequest MHeap MHandlers MHttp SBase64 SHeap SArray SJson SVoucher SRequest SHandlers SPledge SChain SHttp
  PBase64 PRequest6 PMasa PRegistrar PRegistrar2 PPledge3 PPledge4 PChain PChain2 MTls STls MWire SWire MLink SLink PLink.
Open Scope N_scope.

(** ** Answers that the callers do not tell apart *)

Definition alike (a b : Z * bytes) : Prop := (fst a < 0 /\ fst b < 0)%Z \/ (400 <= fst a /\ 400 <= fst b)%Z \/ a = b.

Lemma encode_bound cms : blen cms < SIZE_MAX / 4 -> blen (rfc_encode cms) <= SIZE_MAX.
Proof. intro L. rewrite rfc_encode_len. unfold rfc_len. assert (S : SIZE_MAX = 18446744073709551615) by reflexivity. rewrite S in *. lia. Qed.

(** ** The MASA *)

Lemma masa_shape o w c f ld h body : ossl_sane o -> masa_ok w c f ld h -> bytes_ok body ->
  (exists k, masa_requestvoucher o w c ld h body = UB k) \/
  exists st r l h', masa_requestvoucher o w c ld h body = Ok (st, r, l, h') /\ blen r <= SIZE_MAX /\ bytes_ok r /\ (st = 200%Z \/ st = 400%Z).
Proof.
  intros OS [WO W PL MC Hld] B. destruct (masa_run o w c f ld h body OS WO W PL MC B Hld) as [[_ K]|[_ (st & r & l & h' & E & _ & _ & _ & D)]]; [left; exact K|right].
  exists st, r, l, h'. split; [exact E|].
  assert (BB : bytes_ok (snd (masa_service o w c ld h body))) by (eapply masa_service_bytes; eassumption). unfold masa_service in BB. rewrite E in BB. cbn [snd] in BB.
  destruct D as [(-> & m & cms & _ & _ & L & ->)|(-> & -> & _)].
  - split; [apply encode_bound, L|]. split; [exact BB|left; reflexivity].
  - split; [vm_compute; discriminate|]. split; [exact BB|right; reflexivity].
Qed.

Lemma masa_alike o w c f ld h cp tw ctx ways host port key cert v body : ossl_sane o -> masa_ok w c f ld h -> regex_ok cp -> destination_ok host port -> conn_ok (wy_conn (ways 0%nat)) ->
  shows tw cert key (Some v) -> ssl_accepts tw ctx [v] = true -> bytes_ok body -> blen body <= SIZE_MAX ->
  alike (ask_masa tw (voucher_link tw ctx (masa_serving cp o w c ld h) ways host port) key cert host body) (masa_service o w c ld h body).
Proof.
  intros OS MO C D CO S A B L. pose proof (post_linked tw ctx (masa_serving cp o w c ld h) ways host port key cert (Some v) body S) as P.
  unfold ask_masa, registrar_post, masa_service. unfold linked_reply in P. replace (SIZE_MAX <? blen body) with false in P by lia. rewrite A in P. cbn [negb] in P.
  destruct (masa_shape o w c f ld h body OS MO B) as [[k E]|(st & r & l & h' & E & LR & _ & SR)].
  - unfold masa_serving at 1 in P. rewrite E in *. cbv iota in P. rewrite P. left. cbn [fst]. lia.
  - destruct (masa_exchange cp o w c ld h host port (wy_conn (ways 0%nat)) (wy_server_pick (ways 0%nat)) (wy_client_pick (ways 0%nat)) body st r l h' C D CO L E LR) as (s & SV & X); [lia|lia|].
    rewrite (SV (Some v)), X in P. rewrite P, E. destruct SR as [-> | ->].
    + right. right. destruct r; reflexivity.
    + right. left. cbn [fst]. lia.
Qed.

(** ** The registrar *)

Lemma posts_known o w f v m cms : registrar_posts o w f v m cms -> client_known (Some v) /\ registrar_ready w f.
Proof.
  intros (t & s & i & tls & cert & key & vc & vs & ad & pvr & prox & n & A1 & A2 & A3 & A0 & A4 & A5 & A6 & A7 & A8 & A9 & _). split.
  - exists v, s. split; [reflexivity|]. split; [exact A2|]. rewrite A3. discriminate.
  - split; [rewrite A1; discriminate|]. split; [rewrite A4; discriminate|]. split; [rewrite A5; discriminate|]. split; [rewrite A6; discriminate|].
    apply Forall_forall. intros ts [<-|[<-|[<-|[]]]] M; eapply missing_list; eassumption.
Qed.

Lemma posts_bytes o w f v m cms : ossl_sane o -> registrar_posts o w f v m cms -> bytes_ok cms.
Proof. intros OS (? & ? & ? & ? & ? & ? & ? & ? & ? & ? & ? & ? & _ & _ & _ & _ & _ & _ & _ & _ & _ & _ & _ & _ & _ & _ & _ & _ & SV). eapply signed_bytes; [exact OS|exact SV]. Qed.

(** The answer does not depend on which of two alike services is the MASA. *)
Lemma answer_alike o w f post post' peer body a a' : ossl_sane o -> (forall cms, bytes_ok cms -> blen cms < SIZE_MAX / 4 -> alike (post (rfc_encode cms)) (post' (rfc_encode cms))) ->
  registrar_answer o w f post peer body a -> registrar_answer o w f post' peer body a' -> a = a'.
Proof.
  intros OS AL [(v & m & cms & P1 & P2 & P3 & P4)|[(P1 & P2)|(P1 & P2 & P3)]] [(v' & m' & cms' & Q1 & Q2 & Q3 & Q4)|[(Q1 & Q2)|(Q1 & Q2 & Q3)]].
  - rewrite P1 in Q1. injection Q1 as <-. rewrite P2 in Q2. injection Q2 as <-. rewrite <- (posts_fun _ _ _ _ _ _ _ OS P3 Q3) in *. pose proof (AL cms (posts_bytes _ _ _ _ _ _ OS P3)) as A. unfold alike in A.
    destruct a as [a1 a2], a' as [b1 b2]. cbn [fst snd] in *. set (x := post (rfc_encode cms)) in *. set (y := post' (rfc_encode cms)) in *.
    destruct (N.lt_ge_cases (blen cms) (SIZE_MAX / 4)) as [L|L].
    + specialize (A L). destruct P4 as [(-> & (_ & U1) & ->)|[(-> & (_ & U1) & ->)|(-> & [U1|U1] & ->)]], Q4 as [(-> & (_ & V1) & ->)|[(-> & (_ & V1) & ->)|(-> & [V1|V1] & ->)]];
        destruct A as [A|[A|A]]; try (exfalso; lia); try reflexivity; rewrite A in *; try (exfalso; lia); reflexivity.
    + destruct P4 as [(-> & (? & U1) & ->)|[(-> & (? & U1) & ->)|(-> & U1 & ->)]], Q4 as [(-> & (? & V1) & ->)|[(-> & (? & V1) & ->)|(-> & V1 & ->)]]; try (exfalso; lia). reflexivity.
  - destruct Q2 as [Q2|[_ Q2]]; exfalso; apply Q2; [rewrite P1; exact (proj1 (posts_known _ _ _ _ _ _ P3))|exists v, m, cms; auto].
  - exfalso. apply Q3. exact (proj2 (posts_known _ _ _ _ _ _ P3)).
  - destruct P2 as [P2|[_ P2]]; exfalso; apply P2; [rewrite Q1; exact (proj1 (posts_known _ _ _ _ _ _ Q3))|exists v', m', cms'; auto].
  - congruence.
  - exfalso. destruct P2 as [P2|[P2 _]]; [exact (P2 Q2)|exact (Q3 P2)].
  - exfalso. apply P3. exact (proj2 (posts_known _ _ _ _ _ _ Q3)).
  - exfalso. destruct Q2 as [Q2|[Q2 _]]; [exact (Q2 P2)|exact (P3 Q2)].
  - congruence.
Qed.

Lemma registrar_alike o w c f post post' h client body : ossl_sane o -> registrar_fine w c f h -> view_ok client -> bytes_ok body ->
  (forall cms, bytes_ok cms -> blen cms < SIZE_MAX / 4 -> alike (post (rfc_encode cms)) (post' (rfc_encode cms))) ->
  ((exists k, registrar_requestvoucher o w c post h (Some client) body = UB k) /\ exists k, registrar_requestvoucher o w c post' h (Some client) body = UB k) \/
  exists st r h1 h2, registrar_requestvoucher o w c post h (Some client) body = Ok (st, r, h1) /\ registrar_requestvoucher o w c post' h (Some client) body = Ok (st, r, h2).
Proof.
  intros OS [WO W PL RC] VC B AL. assert (VV : forall v', Some client = Some v' -> view_ok v') by (intros v' Q; injection Q as <-; exact VC).
  destruct (registrar_run o w c f post h (Some client) body OS WO W PL RC B VV) as [[U K]|[U (st & r & h1 & E & _ & _ & A)]], (registrar_run o w c f post' h (Some client) body OS WO W PL RC B VV) as [[U' K']|[U' (st' & r' & h2 & E' & _ & _ & A')]]; try contradiction.
  - left. split; assumption.
  - right. pose proof (answer_alike _ _ _ _ _ _ _ _ _ OS AL A A') as Q. injection Q as -> ->. exists st', r', h1, h2. split; assumption.
Qed.

(** The shape of the registrar's answers when the MASA is one of [masa_service]. *)
Lemma registrar_shape o w c f h wm cm fm ld hm client body st r h' : ossl_sane o -> registrar_fine w c f h -> masa_ok wm cm fm ld hm -> view_ok client -> bytes_ok body ->
  registrar_requestvoucher o w c (masa_service o wm cm ld hm) h (Some client) body = Ok (st, r, h') -> blen r <= SIZE_MAX /\ bytes_ok r /\ (st = 200%Z \/ st = 400%Z \/ st = 500%Z \/ st = 502%Z).
Proof.
  intros OS [WO W PL RC] MO VC B E. assert (VV : forall v', Some client = Some v' -> view_ok v') by (intros v' Q; injection Q as <-; exact VC).
  pose proof (registrar_answers _ _ _ _ _ _ _ _ _ _ _ OS WO W PL RC B VV E) as A.
  destruct A as [(v & m & cms & _ & _ & RP & [(X & _ & Y)|[(X & _ & Y)|(X & _ & Y)]])|[(X & _)|(X & _)]]; cbn [fst snd] in *; try (injection X as X Y); subst st r.
  - assert (BE : bytes_ok (rfc_encode cms)) by (apply cstr_ok_bytes_encode; eapply posts_bytes; eassumption).
    unfold masa_service. destruct (masa_shape o wm cm fm ld hm (rfc_encode cms) OS MO BE) as [[k Em]|(st & r & l & h1 & Em & LR & BR & _)]; rewrite Em; cbn [snd]; [split; [vm_compute; discriminate|]; split; [constructor|auto]|auto].
  - split; [vm_compute; discriminate|]. split; [constructor|auto].
  - split; [vm_compute; discriminate|]. split; [apply bytes_okb_ok; reflexivity|auto].
  - split; [vm_compute; discriminate|]. split; [constructor|auto].
  - split; [vm_compute; discriminate|]. split; [constructor|auto].
Qed.

(** ** Both, over the wire *)

Lemma registrar_wired o w c f h wm cm fm ld hm post tw cp ctx ways host port key cert client enroll server body :
  ossl_sane o -> registrar_fine w c f h -> masa_ok wm cm fm ld hm -> view_ok client -> line_to tw cp ctx ways host port key cert client ->
  hd_error (sx_chain ctx) = Some server -> cv_der server <> None ->
  (forall cms, bytes_ok cms -> blen cms < SIZE_MAX / 4 -> alike (post (rfc_encode cms)) (masa_service o wm cm ld hm (rfc_encode cms))) -> bytes_ok body ->
  let wire := ask_registrar tw (voucher_link tw ctx (registrar_serving cp o w c post h enroll) ways host port) key cert host body in
  let direct := registrar_service o w c (masa_service o wm cm ld hm) h client server body in
  (SIZE_MAX < blen body -> wire = ((-1)%Z, [], None)) /\
  (blen body <= SIZE_MAX ->
     wire = direct \/ exists st r, (400 <= st)%Z /\ direct = (st, r, Some server) /\ wire = (st, sent_text st r, Some server)).
Proof.
  intros OS RF MO VC [C D CO S A] HD DER AL B. cbv zeta. pose proof (post_linked tw ctx (registrar_serving cp o w c post h enroll) ways host port key cert (Some client) body S) as P.
  unfold ask_registrar, pledge_post. unfold linked_reply in P. split; intro L.
  - replace (SIZE_MAX <? blen body) with true in P by lia. exact P.
  - replace (SIZE_MAX <? blen body) with false in P by lia. rewrite A in P. cbn [negb] in P.
    destruct (registrar_alike o w c f post (masa_service o wm cm ld hm) h client body OS RF VC B AL) as [[[k E] [k' E']]|(st & r & h1 & h2 & E & E')].
    + unfold registrar_serving at 1 in P. rewrite E in P. left. rewrite P. unfold registrar_service. rewrite E'. reflexivity.
    + destruct (registrar_shape _ _ _ _ _ _ _ _ _ _ _ _ _ _ _ OS RF MO VC B E') as (LR & _ & SR).
      destruct (registrar_exchange cp o w c post h enroll (Some client) host port (wy_conn (ways 0%nat)) (wy_server_pick (ways 0%nat)) (wy_client_pick (ways 0%nat)) body st r h1 C D (CO 0%nat) L E LR) as (s & SV & X); [lia|lia|].
      rewrite SV, X, HD in P. unfold crypto_copycert in P. destruct (cv_der server) as [der|] eqn:DQ; [|congruence]. unfold registrar_service. rewrite E'. rewrite P.
      destruct (Z.lt_ge_cases st 400) as [Q|Q].
      * left. unfold sent_text. replace (400 <=? st)%Z with false by lia. destruct r; reflexivity.
      * right. exists st, r. split; [exact Q|]. split; reflexivity.
Qed.

Lemma sent_text_bytes st r : bytes_ok r -> bytes_ok (sent_text st r).
Proof. intro B. unfold sent_text. destruct r; [|exact B]. destruct (400 <=? st)%Z; [apply bytes_okb_ok; reflexivity|constructor]. Qed.

(** What is common to every run. *)
Section Wired.
Variables (o : ossl) (tw : tls_world) (cp : compile) (R : registrar_side) (M : masa_side) (client server : cert_view).
Hypothesis OS : ossl_sane o.
Hypothesis SO : sides_ok tw cp R M server.
Hypothesis VC : view_ok client.
Local Notation wr := (rs_world R).
Local Notation cr := (rs_conf R).
Local Notation fr := (rs_files R).
Local Notation hr := (rs_heap R).
Local Notation rctx := (rs_ctx R).
Local Notation wm := (ms_world M).
Local Notation cm := (ms_conf M).
Local Notation fm := (ms_files M).
Local Notation ld := (ms_ld M).
Local Notation hm := (ms_heap M).
Let RF : registrar_fine wr cr fr hr := so_registrar _ _ _ _ _ SO.
Let MO : masa_ok wm cm fm ld hm := so_masa _ _ _ _ _ SO.
Let HD := so_shown _ _ _ _ _ SO.
Let VS := so_server _ _ _ _ _ SO.
Let DER := so_der _ _ _ _ _ SO.
Let LM := so_line _ _ _ _ _ SO.

Lemma masa_wired cms : bytes_ok cms -> blen cms < SIZE_MAX / 4 -> alike (wired_masa o tw cp R M (rfc_encode cms)) (masa_service o wm cm ld hm (rfc_encode cms)).
Proof. intros B L. destruct LM as [C D CO S A]. pose proof (CO 0%nat) as CO0. eapply masa_alike; try eassumption; [apply cstr_ok_bytes_encode; exact B|apply encode_bound; exact L]. Qed.

Lemma wired_cases key cert host port ways body : line_to tw cp rctx ways host port key cert client -> bytes_ok body ->
  (SIZE_MAX < blen body -> wired_registrar o tw cp R M key cert host port ways body = ((-1)%Z, [], None)) /\
  (blen body <= SIZE_MAX -> wired_registrar o tw cp R M key cert host port ways body = direct o R M client server body \/
     exists st r, (400 <= st)%Z /\ direct o R M client server body = (st, r, Some server) /\ wired_registrar o tw cp R M key cert host port ways body = (st, sent_text st r, Some server)).
Proof. intros LR B. exact (registrar_wired o wr cr fr hr wm cm fm ld hm (wired_masa o tw cp R M) tw cp rctx ways host port key cert client (rs_enroll R) server body OS RF MO VC LR HD DER masa_wired B). Qed.

Lemma wired_ok key cert host port ways : line_to tw cp rctx ways host port key cert client -> post_ok (wired_registrar o tw cp R M key cert host port ways).
Proof.
  intros LR body s r v B E. destruct (wired_cases key cert host port ways body LR B) as [W1 W2]. destruct RF as [R1 R2 R3 R4], MO as [M1 M2 M3 M4 M5].
  pose proof (service_ok o wr wm cr fr cm fm hr hm ld client server OS R1 M1 R2 M2 R3 M3 R4 M4 M5 VC VS) as PO.
  destruct (N.lt_ge_cases SIZE_MAX (blen body)) as [L|L].
  - rewrite (W1 L) in E. injection E as <- <- <-. split; [constructor|discriminate].
  - destruct (W2 L) as [Q|(st & r0 & _ & Q1 & Q2)].
    + rewrite Q in E. exact (PO body s r v B E).
    + rewrite Q2 in E. injection E as <- <- <-. destruct (PO body _ _ _ B Q1) as [P1 P2]. split; [apply sent_text_bytes, P1|exact P2].
Qed.

Lemma wired_second key cert host port ways cms tls2 response : line_to tw cp rctx ways host port key cert client -> bytes_ok cms -> blen cms < SIZE_MAX / 4 ->
  second_contact (wired_registrar o tw cp R M key cert host port ways) (rfc_encode cms) tls2 response <-> second_contact (direct o R M client server) (rfc_encode cms) tls2 response.
Proof.
  intros LR B L. destruct (wired_cases key cert host port ways (rfc_encode cms) LR (cstr_ok_bytes_encode _ B)) as [_ W]. destruct (W (encode_bound _ L)) as [Q|(st & r & Q & Q1 & Q2)]; unfold second_contact; [rewrite Q; reflexivity|].
  rewrite Q1, Q2. split; intros (s & v & E & RR & _); injection E as <- _ _; lia.
Qed.

Lemma padding_nil : ~ bad_padding (c_string []).
Proof. intros (g & E & _). vm_compute in E. discriminate. Qed.

(** The first connection: the request with an empty body shows the registrar's certificate. *)
Lemma wired_first key cert host port ways tls1 : line_to tw cp rctx ways host port key cert client -> first_contact (wired_registrar o tw cp R M key cert host port ways) tls1 <-> cv_der server = Some tls1.
Proof.
  intro LR. destruct (wired_cases key cert host port ways [] LR (Forall_nil _)) as [_ W].
  assert (X : exists st r, (0 <= st)%Z /\ direct o R M client server [] = (st, r, Some server)).
  { unfold direct, registrar_service. destruct RF as [R1 R2 R3 R4]. assert (VV : forall v', Some client = Some v' -> view_ok v') by (intros v' Q; injection Q as <-; exact VC).
    destruct (registrar_run o wr cr fr (masa_service o wm cm ld hm) hr (Some client) [] OS R1 R2 R3 R4 (Forall_nil _) VV) as [[(v & s & _ & _ & _ & [Q|(m & ? & ? & ? & ? & ? & ? & ? & _ & Q & _)]) _]|[_ (st & r & h' & E & _ & _ & _)]].
    - exfalso. exact (padding_nil Q).
    - vm_compute in Q. discriminate.
    - rewrite E. exists st, r. split; [|reflexivity]. destruct (registrar_shape _ _ _ _ _ _ _ _ _ _ _ _ _ _ _ OS RF MO VC (Forall_nil _) E) as (_ & _ & S). lia. }
  destruct X as (st & r & S0 & X). assert (Y : exists r', wired_registrar o tw cp R M key cert host port ways [] = (st, r', Some server)).
  { destruct (W ltac:(vm_compute; discriminate)) as [Q|(st' & r' & _ & Q1 & Q2)]; [exists r; congruence|]. rewrite X in Q1. injection Q1 as <- <-. eexists. exact Q2. }
  destruct Y as (r' & Y). unfold first_contact. rewrite Y. split; [intros (s & q & v & E & _ & V); injection E as _ _ <-; exact V|]. intro V. exists st, r', server. auto.
Qed.

Lemma asks_bytes w f tls cms : pledge_asks o w f tls cms -> bytes_ok cms.
Proof. intros (? & ? & ? & ? & ? & ? & _ & _ & _ & _ & _ & _ & _ & SV). eapply signed_bytes; [exact OS|exact SV]. Qed.

Lemma wired_obtains wp fp post1 key cert host port ways tls1 tls2 d : line_to tw cp rctx ways host port key cert client ->
  pledge_obtains o wp fp post1 (wired_registrar o tw cp R M key cert host port ways) tls1 tls2 d <-> pledge_obtains o wp fp post1 (direct o R M client server) tls1 tls2 d.
Proof.
  intro LR. split; intros (cms & response & m & FC & PA & L & SC & RR); exists cms, response, m; (split; [exact FC|]); (split; [exact PA|]); (split; [exact L|]); (split; [|exact RR]).
  all: apply (wired_second key cert host port ways cms tls2 response LR (asks_bytes _ _ _ _ PA) L); exact SC.
Qed.
End Wired.
