(** Proofs about sockets: requests, servers, the order of addresses. *)
From Coq Require Import Permutation.
From Verif Require Import Base PBase MSocket SSocket PSocket.
Open Scope N_scope.

Section With.
  Variable e : env.
  Hypothesis S : sound e.

  Definition idle (c : client) : Prop := cl_sock c = None /\ cl_ssl c = None.
  Lemma once_has v c h m : idle c -> has h (owned c ++ m) ->
    let '(t, c', h') := send_once e v c h in
    idle c' /\ cl_ctx c' = cl_ctx c /\ cl_store c' = cl_store c /\ (v = true -> cl_cert c' = cl_cert c) /\
    (exists L, has h' (owned c' ++ L ++ m) /\ (L = [] \/ v = false /\ L = opt Cert (cl_cert c))) /\
    (t = TFails \/ exists h0, e_talk e h0 = t).
  Proof.
    destruct c as [cx st cs cp cy]; intros [I1 I2] H; cbn [cl_sock cl_ssl] in I1, I2; subst cs cp. unfold send_once. cbn [cl_sock cl_ssl cl_ctx cl_store cl_cert].
    destruct cx as [x|]; cbn [negb].
    2:{ split; [split; reflexivity|]. do 2 (split; [reflexivity|]). split; [reflexivity|]. split; [exists []; split; [exact H|left; reflexivity]|left; reflexivity]. }
    pose proof (create_has e S _ h _ (connects_fair e) H) as H1. destruct (create_socket e (connects e) h) as [[fd|] h1].
    2:{ cbn [negb]. split; [split; reflexivity|]. do 2 (split; [reflexivity|]). split; [reflexivity|]. split; [exists []; split; [exact H1|left; reflexivity]|left; reflexivity]. }
    assert (H2 : has h1 (owned (mk_client (Some x) st (Some fd) None cy) ++ m)) by (eapply has_perm; [apply owned_sock|exact H1]).
    pose proof (ssl_has e S v x fd (mk_client (Some x) st (Some fd) None cy) h1 m eq_refl eq_refl eq_refl H2) as Q. destruct (initialize_ssl e v x fd _ h1) as [[ok c2] h2]. cbn [cl_sock cl_ssl cl_ctx cl_store cl_cert] in Q. destruct Q as (QX & QS & Q).
    destruct ok; cbn [negb].
    2:{ destruct Q as (Q1 & Q2 & Q3 & Q4). split; [split; assumption|]. split; [exact QX|]. split; [exact QS|]. split; [intros _; exact Q3|]. split; [exists []; split; [exact Q4|left; reflexivity]|left; reflexivity]. }
    destruct Q as (Q1 & Q2 & Q3 & Q4). destruct c2 as [x2 st2 s2 p2 y2]. cbn [cl_sock cl_ssl cl_ctx cl_store cl_cert] in *. subst x2 st2 s2. destruct p2 as [p|]; [|congruence].
    set (L := if v then [] else opt Cert cy) in *. set (c2 := mk_client (Some x) st (Some fd) (Some p) y2) in *.
    assert (H3 : has (Uses (Sock fd) :: Uses (Tls p) :: h2) (owned c2 ++ L ++ m)) by (apply has_use; [apply has_use; [exact Q4|]|]; apply owned_in; unfold c2, owned; rewrite !in_app_iff; cbn [opt In cl_sock cl_ssl]; tauto).
    set (h3 := Uses (Sock fd) :: Uses (Tls p) :: h2) in *. set (t := e_talk e h3).
    assert (HL : L = [] \/ v = false /\ L = opt Cert cy) by (unfold L; destruct v; auto).
    assert (SN : sane c2) by (split; discriminate).
    assert (FIN : forall c4 h4, sane c4 -> cl_ctx c4 = Some x -> cl_store c4 = st -> cl_cert c4 = y2 -> has h4 (owned c4 ++ L ++ m) ->
      let '(t0, c', h') := (let (c, h) := hang_up true c4 h4 in (t, c, h)) in
      idle c' /\ cl_ctx c' = Some x /\ cl_store c' = st /\ (v = true -> cl_cert c' = cy) /\ (exists L, has h' (owned c' ++ L ++ m) /\ (L = [] \/ v = false /\ L = opt Cert cy)) /\ (t0 = TFails \/ exists h0, e_talk e h0 = t0)).
    { intros c4 h4 N4 X4 T4 Y4 H4. pose proof (hang_has true c4 h4 (L ++ m) N4 H4) as Q. destruct (hang_up true c4 h4) as [c5 h5]. destruct Q as [Q ->]. cbn [cl_sock cl_ssl cl_ctx cl_store cl_cert] in *. rewrite X4, T4, Y4 in *. split; [split; reflexivity|]. do 2 (split; [reflexivity|]). split; [exact Q3|]. split; [exists L; split; [exact Q|exact HL]|right; exists h3; reflexivity]. }
    destruct t as [| |stt [|]] eqn:ET; try (apply FIN; [exact SN|reflexivity|reflexivity|reflexivity|exact H3]).
    pose proof (hang_has true c2 h3 (L ++ m) SN H3) as Q. destruct (hang_up true c2 h3) as [c4 h4]. destruct Q as [Q ->]. apply FIN; [split; [intros F; exfalso; apply F; reflexivity|intros F; exfalso; apply F; reflexivity]|reflexivity|reflexivity|reflexivity|exact Q].
  Qed.

  Lemma send_has v c h m : idle c -> cl_cert c = None -> has h (owned c ++ m) ->
    let '(r, c', h') := send e v c h in
    idle c' /\ (v = true -> cl_cert c' = None) /\
    (exists L, has h' (owned c' ++ L ++ m) /\ (L = [] \/ v = false /\ (exists y, L = [Cert y]) /\ exists h0, e_talk e h0 = TClosed)) /\
    (forall z, r = Some z -> exists h0 b, e_talk e h0 = TAnswer z b).
  Proof.
    intros I Y H. unfold send. pose proof (once_has v c h m I H) as Q. destruct (send_once e v c h) as [[t c1] h1]. destruct Q as (I1 & X1 & T1 & V1 & (L & H1 & HL) & TT). rewrite Y in *.
    assert (L = []) as -> by (destruct HL as [HL|[_ HL]]; exact HL). cbn [app] in H1. destruct t as [| |z b].
    - split; [exact I1|]. split; [exact V1|]. split; [exists []; auto|discriminate].
    - pose proof (once_has v c1 h1 m I1 H1) as Q. destruct (send_once e v c1 h1) as [[t c2] h2]. destruct Q as (I2 & X2 & T2 & V2 & (L & H2 & HL2) & TT2). split; [exact I2|]. split; [intros V; rewrite (V2 V); apply V1, V|]. split.
      + exists L. split; [exact H2|]. destruct HL2 as [HL2|[HV HL2]]; [left; exact HL2|]. destruct (cl_cert c1) as [y|]; [right|left; exact HL2]. split; [exact HV|]. split; [exists y; exact HL2|]. destruct TT as [TT|TT]; [discriminate|exact TT].
      + intros z Z. destruct t as [| |z' b]; try discriminate. injection Z as ->. destruct TT2 as [TT2|[h0 TT2]]; [discriminate|]. exists h0, b. exact TT2.
    - split; [exact I1|]. split; [exact V1|]. split; [exists []; auto|]. intros z' Z. injection Z as <-. destruct TT as [TT|[h0 TT]]; [discriminate|]. exists h0, b. exact TT.
  Qed.

  Lemma drop_has {A} (f : A -> res) o h m : has h (opt f o ++ m) -> has (drop f o h) m.
  Proof. destruct o as [x|]; cbn [opt app drop]; [apply has_drop1|auto]. Qed.
  Lemma end_has c h m : idle c -> has h (owned c ++ m) -> has (end_client c h) m.
  Proof.
    destruct c as [x st cs cp y]; intros [I1 I2] H; cbn [cl_sock cl_ssl] in I1, I2; subst cs cp. unfold end_client, shutdown_ssl, close_socket, shutdown_socket. cbn [cl_sock cl_ssl cl_ctx cl_store cl_cert snd].
    apply has_assert, has_assert. apply drop_has, drop_has, drop_has. eapply has_perm; [|exact H]. unfold owned. cbn [opt cl_sock cl_ssl cl_ctx cl_store cl_cert]. rewrite !app_nil_r, <- !app_assoc. reflexivity.
  Qed.
  Lemma new_has f h m : has h m -> let (c, h') := new_client e f h in idle c /\ cl_cert c = None /\ cl_store c = None /\ has h' (owned c ++ m).
  Proof.
    intros H. unfold new_client. assert (H1 : has (Gets (Ctx (e_ctx e h)) :: h) (Ctx (e_ctx e h) :: m)) by (apply has_get; [exact H|]; intros l L; exact (proj1 (proj2 (proj2 (S _ _ L))))).
    destruct f; [|split; [split; reflexivity|]; auto]. assert (H2 : has (Uses (Ctx (e_ctx e h)) :: Gets (Ctx (e_ctx e h)) :: h) (Ctx (e_ctx e h) :: m)) by (apply has_use; [exact H1|left; reflexivity]).
    destruct (e_files e _); (split; [split; reflexivity|]); [auto|]. split; [reflexivity|]. split; [reflexivity|]. apply has_drop1, H2.
  Qed.
  Lemma load_has c h m : idle c -> cl_store c = None -> has h (owned c ++ m) -> let (c', h') := load_ca e c h in idle c' /\ cl_cert c' = cl_cert c /\ has h' (owned c' ++ m).
  Proof.
    destruct c as [x st cs cp y]; intros [I1 I2] I3 H; cbn [cl_sock cl_ssl cl_store] in I1, I2, I3; subst cs cp st. unfold load_ca. cbn [cl_sock cl_ssl cl_ctx cl_store cl_cert]. destruct (e_store e h) as [s|] eqn:E; [|split; [split; reflexivity|]; auto].
    assert (H1 : has (Gets (Store s) :: h) (Store s :: owned (mk_client x None None None y) ++ m)) by (apply has_get; [exact H|]; intros l L; exact (proj1 (proj2 (proj2 (proj2 (S _ _ L)))) _ E)).
    destruct x as [x|]; (split; [split; reflexivity|]); (split; [reflexivity|]).
    - apply has_use; [|apply owned_in; left; reflexivity]. eapply has_perm; [|exact H1]. apply perm_swap.
    - apply has_drop1, H1.
  Qed.

  Lemma posted files verify h m r copy h' : has h m -> post_request e files verify h = (r, copy, h') ->
    (exists lost, has h' (handed copy ++ lost ++ m) /\ (lost = [] \/ verify = false /\ (exists y, lost = [Cert y]) /\ exists h0, e_talk e h0 = TClosed)) /\
    (r = (-1)%Z /\ copy = None \/ exists h0 b, e_talk e h0 = TAnswer r b) /\ (verify = true -> copy = None).
  Proof.
    intros H. unfold post_request. pose proof (new_has files h m H) as Q. destruct (new_client e files h) as [c1 h1]. destruct Q as (I1 & Y1 & _ & H1).
    pose proof (send_has verify c1 h1 m I1 Y1 H1) as Q. destruct (send e verify c1 h1) as [[rr c2] h2]. destruct Q as (I2 & V2 & (L & H2 & HL) & A). destruct rr as [z|].
    2:{ intros E; injection E as <- <- <-. split; [|split; [left; auto|reflexivity]]. exists L. split; [|exact HL]. apply end_has; assumption. }
    assert (DONE : (exists lost, has (end_client c2 h2) (handed None ++ lost ++ m) /\ (lost = [] \/ verify = false /\ (exists y, lost = [Cert y]) /\ exists h0, e_talk e h0 = TClosed))) by (exists L; split; [apply end_has; assumption|exact HL]).
    destruct (cl_cert c2) as [y|] eqn:EY.
    2:{ intros E; injection E as <- <- <-. split; [exact DONE|]. split; [right; exact (A _ eq_refl)|reflexivity]. }
    assert (IY : In (Cert y) (owned c2)) by (unfold owned; rewrite EY, !in_app_iff; cbn [opt In]; tauto).
    assert (H3 : has (Uses (Cert y) :: h2) (owned c2 ++ L ++ m)) by (apply has_use; [exact H2|apply owned_in, IY]).
    destruct (e_copy e _) as [k|] eqn:EK; intros E; injection E as <- <- <-; (split; [|split; [right; exact (A _ eq_refl)|try reflexivity]]).
    - exists L. split; [|exact HL]. apply end_has; [exact I2|]. assert (H4 : has (Gets (Cert k) :: Uses (Cert y) :: h2) (Cert k :: owned c2 ++ L ++ m)) by (apply has_get; [exact H3|]; intros l LL; exact (proj2 (proj2 (proj2 (proj2 (proj2 (proj2 (S _ _ LL)))))) _ EK)).
      eapply has_perm; [|exact H4]. cbn [handed app]. apply Permutation_middle.
    - intros V. specialize (V2 V). congruence.
    - exists L. split; [|exact HL]. apply end_has; assumption.
  Qed.
  Lemma posted_ca files h m r h' : has h m -> post_request_ca e files h = (r, h') -> has h' m /\ (r = (-1)%Z \/ exists h0 b, e_talk e h0 = TAnswer r b).
  Proof.
    intros H. unfold post_request_ca. pose proof (new_has files h m H) as Q. destruct (new_client e files h) as [c0 h0]. destruct Q as (I0 & Y0 & T0 & H0).
    pose proof (load_has c0 h0 m I0 T0 H0) as Q. destruct (load_ca e c0 h0) as [c1 h1]. destruct Q as (I1 & Y1 & H1). rewrite Y0 in Y1.
    pose proof (send_has true c1 h1 m I1 Y1 H1) as Q. destruct (send e true c1 h1) as [[rr c2] h2]. destruct Q as (I2 & V2 & (L & H2 & HL) & A). intros E; injection E as <- <-.
    assert (L = []) as -> by (destruct HL as [HL|[F _]]; [exact HL|discriminate]). split; [apply end_has; assumption|]. destruct rr as [z|]; [right; exact (A _ eq_refl)|left; reflexivity].
  Qed.

  (** *** The server *)
  Lemma bound_to port h m r s h' : has h m -> bind_internal e port h = (r, s, h') ->
    has h' (opt Sock s ++ m) /\ (s = None -> r = (-1)%Z) /\ ((0 < port)%Z -> r = port \/ r = (-1)%Z /\ s = None).
  Proof.
    intros H. unfold bind_internal. pose proof (create_has e S _ h m (binds_fair e) H) as Q. destruct (create_socket e (binds e) h) as [[fd|] h1].
    2:{ intros E; injection E as <- <- <-. split; [exact Q|]. split; [reflexivity|]. intros _. right. auto. }
    destruct (Z.eqb_spec port 0) as [P|P].
    - assert (Q1 : has (Uses (Sock fd) :: h1) (Sock fd :: m)) by (apply has_use; [exact Q|left; reflexivity]). destruct (e_sockname e _) as [p|]; intros E; injection E as <- <- <-; (split; [exact Q1|]); (split; [discriminate|lia]).
    - intros E; injection E as <- <- <-. split; [exact Q|]. split; [discriminate|]. intros _. left. reflexivity.
  Qed.
  Lemma served_one served x fd h m r h' : has h (Sock fd :: m) -> In (Ctx x) m -> serve_socket e served x fd h = (r, h') -> has h' m.
  Proof.
    intros H IX. unfold serve_socket. assert (H1 : has (Uses (Ctx x) :: h) (Sock fd :: m)) by (apply has_use; [exact H|right; exact IX]).
    assert (BYE : forall h0, has h0 (Sock fd :: m) -> has (Drops (Sock fd) :: Uses (Sock fd) :: h0) m) by (intros h0 H0; apply has_drop1, has_use; [exact H0|left; reflexivity]).
    destruct (e_ssl e _) as [p|] eqn:E; [|intros Q; injection Q as <- <-; apply BYE, H1].
    assert (H2 : has (Uses (Sock fd) :: Uses (Tls p) :: Uses (Sock fd) :: Gets (Tls p) :: Uses (Ctx x) :: h) (Tls p :: Sock fd :: m)).
    { apply has_use; [apply has_use; [apply has_use; [apply has_get; [exact H1|]|right; left; reflexivity]|left; reflexivity]|right; left; reflexivity]. intros l L. exact (proj1 (proj2 (proj2 (proj2 (proj2 (S _ _ L))))) _ E). }
    assert (US : forall h0, has h0 (Tls p :: Sock fd :: m) -> has (Uses (Sock fd) :: Uses (Tls p) :: h0) (Tls p :: Sock fd :: m)) by (intros h0 H0; apply has_use; [apply has_use; [exact H0|left; reflexivity]|right; left; reflexivity]).
    cbv zeta. destruct (negb (e_handshake e _)); intros Q; injection Q as <- <-.
    - apply BYE. apply has_use; [|left; reflexivity]. apply has_drop1, US, H2.
    - apply BYE. apply has_drop1. destruct (served _); [apply US|]; apply US, H2.
  Qed.
End With.

(** *** The order of addresses *)
Definition tells (att : N -> N -> hist -> bool * hist) : Prop := forall fd x h, attempts (snd (att fd x h)) = attempts h ++ [(fd, x)].
Lemma connects_tells e : tells (connects e).
Proof. intros fd x h. unfold connects. destruct (e_connect e _); try reflexivity. destruct (FD_SETSIZE <=? fd); [reflexivity|]. destruct (e_ready e _); reflexivity. Qed.
Lemma binds_tells e : tells (binds e).
Proof. intros fd x h. unfold binds. destruct (e_bind e _); reflexivity. Qed.
Lemma each_order e att a : tells att -> forall l h, let (r, h') := each_address e att a l h in exists t, attempts h' = attempts h ++ t /\
  match r with
  | Some fd => exists l1 x l2 t1, l = l1 ++ x :: l2 /\ t = t1 ++ [(fd, x)] /\ thinned (map snd t1) l1 /\ ((forall h, e_socket e h <> None /\ e_cloexec e h = true) -> map snd t1 = l1)
  | None => thinned (map snd t) l /\ ((forall h, e_socket e h <> None /\ e_cloexec e h = true) -> map snd t = l)
  end.
Proof.
  intros T. induction l as [|x l IH]; intros h; [exists []; rewrite app_nil_r; split; [reflexivity|]; split; [constructor|reflexivity]|]. cbn [each_address].
  assert (SKIP : forall h0, attempts h0 = attempts h -> ((forall h, e_socket e h <> None /\ e_cloexec e h = true) -> False) -> let (r, h') := each_address e att a l h0 in exists t, attempts h' = attempts h ++ t /\
    match r with
    | Some fd => exists l1 x0 l2 t1, x :: l = l1 ++ x0 :: l2 /\ t = t1 ++ [(fd, x0)] /\ thinned (map snd t1) l1 /\ ((forall h, e_socket e h <> None /\ e_cloexec e h = true) -> map snd t1 = l1)
    | None => thinned (map snd t) (x :: l) /\ ((forall h, e_socket e h <> None /\ e_cloexec e h = true) -> map snd t = x :: l)
    end).
  { intros h0 E0 F. specialize (IH h0). destruct (each_address e att a l h0) as [r h']. destruct IH as (t & E & M). exists t. split; [rewrite E, E0; reflexivity|]. destruct r as [fd|].
    - destruct M as (l1 & x0 & l2 & t1 & M1 & M2 & M3 & M4). exists (x :: l1), x0, l2, t1. split; [rewrite M1; reflexivity|]. split; [exact M2|]. split; [constructor; exact M3|]. intros Q. destruct (F Q).
    - destruct M as [M1 M2]. split; [constructor; exact M1|]. intros Q. destruct (F Q). }
  destruct (e_socket e _) as [fd|] eqn:E1; [|apply SKIP; [reflexivity|]; intros Q; destruct (Q (Uses (Addrs a) :: h)) as [Q1 _]; congruence].
  destruct (e_cloexec e _) eqn:E2; [|apply SKIP; [reflexivity|]; intros Q; match type of E2 with e_cloexec e ?y = _ => destruct (Q y) as [_ Q1]; congruence end].
  match goal with |- context [att fd x ?y] => pose proof (T fd x y) as E3; destruct (att fd x y) as [ok h4] end. cbn [snd] in E3. cbn [attempts] in E3.
  destruct ok; [exists [(fd, x)]; split; [exact E3|]; exists [], x, l, []; repeat split; constructor|].
  specialize (IH (Drops (Sock fd) :: h4)). destruct (each_address e att a l (Drops (Sock fd) :: h4)) as [r h']. destruct IH as (t & E & M). cbn [attempts] in E. rewrite E3, <- app_assoc in E. exists ((fd, x) :: t). split; [exact E|]. destruct r as [fd'|].
  - destruct M as (l1 & x0 & l2 & t1 & M1 & M2 & M3 & M4). exists (x :: l1), x0, l2, ((fd, x) :: t1). split; [rewrite M1; reflexivity|]. split; [rewrite M2; reflexivity|]. split; [cbn [map snd]; constructor; exact M3|]. intros Q. cbn [map snd]. rewrite (M4 Q). reflexivity.
  - destruct M as [M1 M2]. split; [cbn [map snd]; constructor; exact M1|]. intros Q. cbn [map snd]. rewrite (M2 Q). reflexivity.
Qed.
Lemma create_order e att h a l r h' : tells att -> e_addrs e h = Some (a, l) -> create_socket e att h = (r, h') -> exists t, attempts h' = attempts h ++ t /\
  match r with
  | Some fd => exists l1 x l2 t1, l = l1 ++ x :: l2 /\ t = t1 ++ [(fd, x)] /\ thinned (map snd t1) l1 /\ ((forall h, e_socket e h <> None /\ e_cloexec e h = true) -> map snd t1 = l1)
  | None => thinned (map snd t) l /\ ((forall h, e_socket e h <> None /\ e_cloexec e h = true) -> map snd t = l)
  end.
Proof.
  intros T E. unfold create_socket. rewrite E. pose proof (each_order e att a T l (Gets (Addrs a) :: h)) as Q. destruct (each_address e att a l _) as [r1 h1]. intros F; injection F as <- <-. exact Q.
Qed.
