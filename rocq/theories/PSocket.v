(** Proofs about sockets: everything is given back. *)
From Coq Require Import Permutation.
From Verif Require Import Base PBase MSocket SSocket.
Open Scope N_scope.

Definition has (h : hist) (m : list res) : Prop := exists l, holding h = Some l /\ NoDup l /\ Permutation l m.
Lemma has_perm h m m' : Permutation m m' -> has h m -> has h m'.
Proof. intros P (l & A & B & C). exists l. split; [exact A|]. split; [exact B|]. transitivity m; assumption. Qed.
Lemma has_nil : has [] [].
Proof. exists []. split; [reflexivity|]. split; [constructor|reflexivity]. Qed.
Lemma has_exactly h m : has h m -> exactly h m.
Proof. intros (l & A & _ & C). exists l. auto. Qed.
Lemma has_get h m x : has h m -> (forall l, holding h = Some l -> ~ In x l) -> has (Gets x :: h) (x :: m).
Proof.
  intros (l & A & B & C) F. exists (x :: l). cbn [holding]. rewrite A. specialize (F _ A). destruct (in_dec res_eq x l) as [Q|Q]; [contradiction|]. split; [reflexivity|]. split; [constructor; assumption|]. apply perm_skip, C.
Qed.
Lemma has_use h m x : has h m -> In x m -> has (Uses x :: h) m.
Proof.
  intros (l & A & B & C) I. exists l. cbn [holding]. rewrite A. destruct (in_dec res_eq x l) as [Q|Q]; [auto|]. exfalso. apply Q. eapply Permutation_in; [symmetry; exact C|exact I].
Qed.
Lemma has_try h m fd x : has h m -> In (Sock fd) m -> has (Tries fd x :: h) m.
Proof.
  intros (l & A & B & C) I. exists l. cbn [holding]. rewrite A. destruct (in_dec res_eq (Sock fd) l) as [Q|Q]; [auto|]. exfalso. apply Q. eapply Permutation_in; [symmetry; exact C|exact I].
Qed.
Lemma remove_absent : forall (x : res) l, ~ In x l -> remove res_eq x l = l.
Proof. induction l as [|y l IH]; intros Q; [reflexivity|]. cbn [remove]. destruct (res_eq x y) as [E|E]; [exfalso; apply Q; left; congruence|]. f_equal. apply IH. intros I. apply Q. right. exact I. Qed.
Lemma remove_perm : forall l (x : res) m, NoDup l -> Permutation l (x :: m) -> Permutation (remove res_eq x l) m /\ NoDup (remove res_eq x l).
Proof.
  intros l x m N P. assert (I : In x l) by (eapply Permutation_in; [symmetry; exact P|left; reflexivity]). apply in_split in I. destruct I as (a & b & ->).
  pose proof (NoDup_remove_2 _ _ _ N) as Q. pose proof (NoDup_remove_1 _ _ _ N) as N1. assert (E : remove res_eq x (a ++ x :: b) = a ++ b).
  { rewrite remove_app. cbn [remove]. destruct (res_eq x x) as [_|F]; [|congruence]. rewrite !remove_absent; [reflexivity| |]; intros I; apply Q, in_or_app; auto. }
  rewrite E. split; [|exact N1]. apply Permutation_cons_inv with x. rewrite <- P. apply Permutation_middle.
Qed.
Lemma has_drop h m x m' : has h m -> Permutation m (x :: m') -> has (Drops x :: h) m'.
Proof.
  intros (l & A & B & C) P. exists (remove res_eq x l). cbn [holding]. rewrite A. assert (PL : Permutation l (x :: m')) by (transitivity m; assumption). destruct (in_dec res_eq x l) as [Q|Q]; [|exfalso; apply Q; eapply Permutation_in; [symmetry; exact PL|left; reflexivity]].
  destruct (remove_perm _ _ _ B PL). auto.
Qed.
Lemma has_drop1 h m x : has h (x :: m) -> has (Drops x :: h) m.
Proof. intros H. eapply has_drop; [exact H|reflexivity]. Qed.
Lemma has_assert h m : has h m -> has (Asserts true :: h) m.
Proof. intros (l & A & B & C). exists l. cbn [holding]. rewrite A. auto. Qed.

Section With.
  Variable e : env.
  Hypothesis S : sound e.

  Definition fair (attempt : N -> N -> hist -> bool * hist) : Prop := forall fd x h m, has h m -> In (Sock fd) m -> has (snd (attempt fd x h)) m.
  Lemma each_has att a : fair att -> forall l h m, has h m -> In (Addrs a) m ->
    let (r, h') := each_address e att a l h in has h' (match r with Some fd => Sock fd :: m | None => m end).
  Proof.
    intros F. induction l as [|x l IH]; intros h m H A; [exact H|]. cbn [each_address]. assert (H1 : has (Uses (Addrs a) :: h) m) by (apply has_use; assumption). destruct (e_socket e _) as [fd|] eqn:E; [|apply IH; assumption].
    assert (H2 : has (Gets (Sock fd) :: Uses (Addrs a) :: h) (Sock fd :: m)) by (apply has_get; [exact H1|]; intros l0 L; exact (proj1 (proj2 (S _ _ L)) _ E)).
    assert (H3 : has (Uses (Sock fd) :: Gets (Sock fd) :: Uses (Addrs a) :: h) (Sock fd :: m)) by (apply has_use; [exact H2|left; reflexivity]).
    destruct (e_cloexec e _); [|apply IH; [apply has_drop1, H3|exact A]].
    match goal with |- context [att fd x ?y] => pose proof (F fd x y (Sock fd :: m) (has_use _ _ _ H3 (or_introl eq_refl)) (or_introl eq_refl)) as H4; destruct (att fd x y) as [ok h4] end. cbn [snd] in H4.
    destruct ok; [exact H4|]. apply IH; [apply has_drop1, H4|exact A].
  Qed.
  Lemma create_has att h m : fair att -> has h m -> let (r, h') := create_socket e att h in has h' (match r with Some fd => Sock fd :: m | None => m end).
  Proof.
    intros F H. unfold create_socket. destruct (e_addrs e h) as [[a l]|] eqn:E; [|exact H].
    assert (H1 : has (Gets (Addrs a) :: h) (Addrs a :: m)) by (apply has_get; [exact H|]; intros l0 L; exact (proj1 (S _ _ L) _ _ E)).
    pose proof (each_has _ a F l _ _ H1 (or_introl eq_refl)) as H2. destruct (each_address e att a l _) as [[fd|] h2].
    - eapply has_drop; [exact H2|]. apply perm_swap.
    - apply has_drop1, H2.
  Qed.
  Lemma binds_fair : fair (binds e).
  Proof. intros fd x h m H I. unfold binds. destruct (e_bind e _); [apply has_use|]; try apply has_try; assumption. Qed.
  Lemma connects_fair : fair (connects e).
  Proof.
    intros fd x h m H I. unfold connects. assert (H1 : has (Tries fd x :: Uses (Sock fd) :: h) m) by (apply has_try; [apply has_use|]; assumption).
    destruct (e_connect e _); [apply has_use; assumption|exact H1|]. destruct (FD_SETSIZE <=? fd); [exact H1|]. destruct (e_ready e _); repeat apply has_use; assumption.
  Qed.

  (** *** The client *)
  Definition opt {A} (f : A -> res) (o : option A) : list res := match o with Some x => [f x] | None => [] end.
  Definition owned (c : client) : list res := opt Ctx (cl_ctx c) ++ opt Store (cl_store c) ++ opt Cert (cl_cert c) ++ opt Sock (cl_sock c) ++ opt Tls (cl_ssl c).
  Definition sane (c : client) : Prop := (cl_ssl c <> None -> cl_sock c <> None) /\ (cl_sock c <> None -> cl_ctx c <> None).

  Lemma close_has c h m : cl_ssl c = None -> has h (owned c ++ m) -> let (c', h') := close_socket c (shutdown_socket c h) in
    has h' (owned c' ++ m) /\ c' = mk_client (cl_ctx c) (cl_store c) None None (cl_cert c).
  Proof.
    destruct c as [x st [fd|] p y]; cbn [cl_ssl]; intros ->; unfold close_socket, shutdown_socket; cbn [cl_sock cl_ssl cl_ctx cl_store cl_cert]; intros H; (split; [|reflexivity]).
    - eapply has_drop; [apply has_assert, has_use; [exact H|]|]; unfold owned; cbn [opt app cl_sock cl_ssl cl_ctx cl_store cl_cert].
      + apply in_or_app. left. rewrite !in_app_iff. cbn [In]. tauto.
      + rewrite <- !app_assoc. cbn [app]. rewrite !app_assoc. symmetry. apply Permutation_middle.
    - apply has_assert. exact H.
  Qed.
  Lemma hang_has g c h m : sane c -> has h (owned c ++ m) -> let (c', h') := hang_up g c h in
    has h' (owned c' ++ m) /\ c' = mk_client (cl_ctx c) (cl_store c) None None (cl_cert c).
  Proof.
    intros [SA SB] H. unfold hang_up, shutdown_ssl. destruct c as [x st [fd|] [p|] y]; cbn [cl_sock cl_ssl cl_ctx cl_store cl_cert] in *.
    - assert (H1 : has (Drops (Tls p) :: (if g then Uses (Sock fd) :: Uses (Tls p) :: h else h)) (owned (mk_client x st (Some fd) None y) ++ m)).
      { assert (H0 : has (if g then Uses (Sock fd) :: Uses (Tls p) :: h else h) (owned (mk_client x st (Some fd) (Some p) y) ++ m)).
        { destruct g; [|exact H]. apply has_use; [apply has_use; [exact H|]|]; apply in_or_app; left; unfold owned; rewrite !in_app_iff; cbn [opt In cl_sock cl_ssl]; tauto. }
        eapply has_drop; [exact H0|]. unfold owned. cbn [opt app cl_sock cl_ssl cl_ctx cl_store cl_cert]. rewrite <- !app_assoc. cbn [app].
        transitivity (Tls p :: (opt Ctx x ++ opt Store st ++ opt Cert y ++ [Sock fd]) ++ m); [|rewrite <- !app_assoc; reflexivity]. rewrite Permutation_middle. rewrite <- !app_assoc. reflexivity. }
      apply (close_has (mk_client x st (Some fd) None y)); [reflexivity|exact H1].
    - apply (close_has (mk_client x st (Some fd) None y)); [reflexivity|exact H].
    - exfalso. apply SA; discriminate || reflexivity.
    - apply (close_has (mk_client x st None None y)); [reflexivity|]. apply has_assert. exact H.
  Qed.

  Lemma owned_in c m r : In r (owned c) -> In r (owned c ++ m).
  Proof. intros I. apply in_or_app. left. exact I. Qed.
  (** A TLS object or a certificate joins what the client owns. *)
  Lemma owned_tls x st fd y p m : Permutation (Tls p :: owned (mk_client x st (Some fd) None y) ++ m) (owned (mk_client x st (Some fd) (Some p) y) ++ m).
  Proof.
    unfold owned. cbn [opt app cl_sock cl_ssl cl_ctx cl_store cl_cert]. change (Tls p :: ?a ++ m) with ((Tls p :: a) ++ m). apply Permutation_app_tail. rewrite Permutation_cons_append, <- !app_assoc. reflexivity.
  Qed.
  Lemma owned_cert x st s p y m : Permutation (Cert y :: owned (mk_client x st s p None) ++ m) (owned (mk_client x st s p (Some y)) ++ m).
  Proof.
    unfold owned. cbn [opt app cl_sock cl_ssl cl_ctx cl_store cl_cert]. change (Cert y :: ?a ++ m) with ((Cert y :: a) ++ m). apply Permutation_app_tail. rewrite (app_assoc (opt Ctx x) (opt Store st) (opt Sock s ++ opt Tls p)), (app_assoc (opt Ctx x) (opt Store st)). apply Permutation_middle.
  Qed.
  Lemma owned_sock x st fd y m : Permutation (Sock fd :: owned (mk_client x st None None y) ++ m) (owned (mk_client x st (Some fd) None y) ++ m).
  Proof.
    unfold owned. cbn [opt app cl_sock cl_ssl cl_ctx cl_store cl_cert]. change (Sock fd :: ?a ++ m) with ((Sock fd :: a) ++ m). apply Permutation_app_tail. rewrite app_nil_r. rewrite Permutation_cons_append, <- !app_assoc. reflexivity.
  Qed.

  Definition lost (v : bool) (old : option N) (c' : client) : list res := if v then [] else opt Cert old.
  (** [initialize_ssl] on a fresh connection. *)
  Lemma ssl_has v x fd c h m : cl_ctx c = Some x -> cl_sock c = Some fd -> cl_ssl c = None -> has h (owned c ++ m) ->
    let '(ok, c', h') := initialize_ssl e v x fd c h in
    cl_ctx c' = cl_ctx c /\ cl_store c' = cl_store c /\
    if ok then cl_sock c' = Some fd /\ cl_ssl c' <> None /\ (v = true -> cl_cert c' = cl_cert c) /\ has h' (owned c' ++ (if v then [] else opt Cert (cl_cert c)) ++ m)
    else cl_sock c' = None /\ cl_ssl c' = None /\ cl_cert c' = cl_cert c /\ has h' (owned c' ++ m).
  Proof.
    destruct c as [cx st cs cp cy]; cbn [cl_ctx cl_store cl_sock cl_ssl cl_cert]; intros -> -> -> H. unfold initialize_ssl.
    assert (IX : In (Ctx x) (owned (mk_client (Some x) st (Some fd) None cy))) by (left; reflexivity).
    assert (IS : In (Sock fd) (owned (mk_client (Some x) st (Some fd) None cy))) by (unfold owned; rewrite !in_app_iff; cbn [opt In cl_sock]; tauto).
    assert (H1 : has (Uses (Ctx x) :: h) (owned (mk_client (Some x) st (Some fd) None cy) ++ m)) by (apply has_use; [exact H|apply owned_in, IX]).
    destruct (e_ssl e _) as [p|] eqn:E.
    2:{ pose proof (close_has (mk_client (Some x) st (Some fd) None cy) _ m eq_refl H1) as Q. destruct (close_socket _ _) as [c' h']. destruct Q as [Q ->]. cbn [cl_ctx cl_store cl_sock cl_ssl cl_cert] in *. do 5 (split; [reflexivity|]). exact Q. }
    assert (H2 : has (Gets (Tls p) :: Uses (Ctx x) :: h) (Tls p :: owned (mk_client (Some x) st (Some fd) None cy) ++ m)) by (apply has_get; [exact H1|]; intros l0 L; exact (proj1 (proj2 (proj2 (proj2 (proj2 (S _ _ L))))) _ E)).
    assert (H3 : has (Uses (Sock fd) :: Gets (Tls p) :: Uses (Ctx x) :: h) (Tls p :: owned (mk_client (Some x) st (Some fd) None cy) ++ m)) by (apply has_use; [exact H2|right; apply owned_in, IS]).
    assert (BAD : forall h0, has h0 (Tls p :: owned (mk_client (Some x) st (Some fd) None cy) ++ m) ->
      let '(ok, c', h') := (let h := Drops (Tls p) :: Uses (Sock fd) :: Uses (Tls p) :: h0 in let (c, h) := close_socket (mk_client (Some x) st (Some fd) None cy) (shutdown_socket (mk_client (Some x) st (Some fd) None cy) h) in (false, c, h)) in
      cl_ctx c' = Some x /\ cl_store c' = st /\
      if ok then cl_sock c' = Some fd /\ cl_ssl c' <> None /\ (v = true -> cl_cert c' = cy) /\ has h' (owned c' ++ (if v then [] else opt Cert cy) ++ m) else cl_sock c' = None /\ cl_ssl c' = None /\ cl_cert c' = cy /\ has h' (owned c' ++ m)).
    { intros h0 H0. cbv zeta. assert (H5 : has (Drops (Tls p) :: Uses (Sock fd) :: Uses (Tls p) :: h0) (owned (mk_client (Some x) st (Some fd) None cy) ++ m)).
      { apply has_drop1, has_use; [apply has_use; [exact H0|left; reflexivity]|right; apply owned_in, IS]. }
      pose proof (close_has (mk_client (Some x) st (Some fd) None cy) _ m eq_refl H5) as Q. destruct (close_socket _ _) as [c' h']. destruct Q as [Q ->]. cbn [cl_ctx cl_store cl_sock cl_ssl cl_cert] in *. do 5 (split; [reflexivity|]). exact Q. }
    cbv zeta in BAD |- *. destruct (v && negb (e_load e _)); [apply BAD, H3|].
    assert (H4 : has (Uses (Sock fd) :: Uses (Tls p) :: Uses (Sock fd) :: Gets (Tls p) :: Uses (Ctx x) :: h) (Tls p :: owned (mk_client (Some x) st (Some fd) None cy) ++ m)) by (apply has_use; [apply has_use; [exact H3|left; reflexivity]|right; apply owned_in, IS]).
    destruct (negb (e_handshake e _)); [apply BAD, H4|]. destruct v.
    - destruct (negb (e_verified e _)); [apply BAD, H4|]. destruct (e_peer e _) as [y|] eqn:EP; [|apply BAD, H4]. cbn [cl_ctx cl_store cl_sock cl_ssl cl_cert app]. split; [reflexivity|]. split; [reflexivity|]. split; [reflexivity|]. split; [discriminate|]. split; [reflexivity|].
      apply has_drop1, has_get; [|intros l0 L; exact (proj1 (proj2 (proj2 (proj2 (proj2 (proj2 (S _ _ L)))))) _ EP)]. eapply has_perm; [apply owned_tls|exact H4].
    - destruct (e_peer e _) as [y|] eqn:EP; cbn [cl_ctx cl_store cl_sock cl_ssl cl_cert]; (split; [reflexivity|]); (split; [reflexivity|]); (split; [reflexivity|]); (split; [discriminate|]); (split; [discriminate|]).
      + assert (H5 : has (Gets (Cert y) :: Uses (Sock fd) :: Uses (Tls p) :: Uses (Sock fd) :: Gets (Tls p) :: Uses (Ctx x) :: h) (Cert y :: owned (mk_client (Some x) st (Some fd) (Some p) cy) ++ m))
          by (apply has_get; [eapply has_perm; [apply owned_tls|exact H4]|intros l0 L; exact (proj1 (proj2 (proj2 (proj2 (proj2 (proj2 (S _ _ L)))))) _ EP)]).
        eapply has_perm; [|exact H5]. destruct cy as [cy|]; cbn [opt app].
        * rewrite <- owned_cert. rewrite <- owned_cert. apply perm_skip. rewrite Permutation_middle. reflexivity.
        * apply owned_cert.
      + eapply has_perm; [|exact H4]. rewrite owned_tls. destruct cy as [cy|]; cbn [opt app]; [|reflexivity]. rewrite <- owned_cert. rewrite Permutation_middle. reflexivity.
  Qed.
End With.
