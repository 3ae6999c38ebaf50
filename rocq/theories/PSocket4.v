(** A socket that is bound is one for which the kernel said so, one that is connected too. *)
From Verif Require Import Base PBase MSocket SSocket PSocket PSocket2.
Open Scope N_scope.

Section Attempts.
  Variable e : env.
  Variable att : N -> N -> hist -> bool * hist.
  (** What an attempt that works and one that fails leave. *)
  Variable works : N -> N -> hist -> hist -> Prop.
  Variable works_not : N -> N -> hist -> Prop.
  Hypothesis att_works : forall fd x h h', att fd x h = (true, h') -> works fd x h h'.
  Hypothesis att_fails : forall fd x h h', att fd x h = (false, h') ->
    exists p q, h' = p ++ Tries fd x :: q ++ h /\ (forall y z, ~ In (Tries y z) p) /\ (forall y z, ~ In (Tries y z) q) /\ works_not fd x (q ++ h).

  Lemma each_works a : forall l h fd h', each_address e att a l h = (Some fd, h') -> exists x h0, works fd x h0 h'.
  Proof.
    induction l as [|x l IH]; intros h fd h'; cbn [each_address]; [discriminate|]. destruct (e_socket e _) as [f|]; [|apply IH]. destruct (e_cloexec e _); [|apply IH].
    destruct (att f x _) as [ok h1] eqn:A. destruct ok; [|apply IH]. intro Q. injection Q as <- <-. exists x. eexists. apply att_works, A.
  Qed.
  Definition all_failed (h h' : hist) : Prop := forall p fd x q, h' = p ++ Tries fd x :: q ++ h -> works_not fd x (q ++ h).
  Lemma failed_more h o h0 : (forall y z, o <> Tries y z) -> all_failed h h0 -> (exists q, h0 = q ++ h) -> all_failed h (o :: h0) /\ exists q, o :: h0 = q ++ h.
  Proof.
    intros N F (q0 & E). split; [|exists (o :: q0); rewrite E; reflexivity]. intros [|c p] fd x q Q; cbn [app] in Q; injection Q as Q1 Q2; [destruct (N _ _ Q1)|]. exact (F _ _ _ _ Q2).
  Qed.
  Lemma failed_app h : forall p h0, (forall y z, ~ In (Tries y z) p) -> all_failed h h0 -> (exists q, h0 = q ++ h) -> all_failed h (p ++ h0) /\ exists q, p ++ h0 = q ++ h.
  Proof.
    induction p as [|o p IH]; intros h0 N F Q; [split; assumption|]. cbn [app]. destruct (IH h0 ltac:(intros y z I; apply (N y z); right; exact I) F Q) as [F1 Q1].
    apply failed_more; [intros y z ->; apply (N y z); left; reflexivity|exact F1|exact Q1].
  Qed.
  Lemma each_fails h a : forall l h0 h', all_failed h h0 -> (exists q, h0 = q ++ h) -> each_address e att a l h0 = (None, h') -> all_failed h h' /\ exists q, h' = q ++ h.
  Proof.
    induction l as [|x l IH]; intros h0 h' F Q; cbn [each_address]; [intro E; injection E as <-; split; assumption|].
    destruct (failed_more h (Uses (Addrs a)) h0 ltac:(discriminate) F Q) as [F1 Q1]. destruct (e_socket e _) as [f|]; [|apply IH; assumption].
    destruct (failed_app h [Uses (Sock f); Gets (Sock f)] _ ltac:(intros y z [I|[I|[]]]; discriminate I) F1 Q1) as [F2 Q2]. cbn [app] in F2, Q2.
    destruct (e_cloexec e _).
    - destruct (failed_more h (Uses (Sock f)) _ ltac:(discriminate) F2 Q2) as [F3 Q3]. destruct (att f x _) as [ok h1] eqn:A. destruct ok; [discriminate|].
      destruct (att_fails _ _ _ _ A) as (p & q & E & NP & NQ & W). destruct (failed_app h q _ NQ F3 Q3) as [F4 Q4].
      assert (F5 : all_failed h (Tries f x :: q ++ Uses (Sock f) :: Uses (Sock f) :: Gets (Sock f) :: Uses (Addrs a) :: h0)).
      { intros [|c r] fd y q2 E2; cbn [app] in E2; [injection E2 as E3 E3' E4; subst fd y; rewrite <- E4; exact W|injection E2 as _ E4; exact (F4 _ _ _ _ E4)]. }
      destruct (failed_app h p _ NP F5) as [F6 Q6]; [destruct Q4 as (q4 & Q4); exists (Tries f x :: q4); rewrite Q4; reflexivity|]. rewrite <- E in F6, Q6.
      destruct (failed_more h (Drops (Sock f)) h1 ltac:(discriminate) F6 Q6) as [F7 Q7]. apply IH; assumption.
    - destruct (failed_more h (Drops (Sock f)) _ ltac:(discriminate) F2 Q2) as [F3 Q3]. apply IH; assumption.
  Qed.
  Lemma create_works h fd h' : create_socket e att h = (Some fd, h') -> exists a x h0 h1, h' = Drops (Addrs a) :: h1 /\ works fd x h0 h1.
  Proof.
    unfold create_socket. destruct (e_addrs e h) as [[a l]|]; [|discriminate]. destruct (each_address e att a l _) as [r h1] eqn:E. intro Q. injection Q as -> <-.
    destruct (each_works _ _ _ _ _ E) as (x & h0 & W). exists a, x, h0, h1. split; [reflexivity|exact W].
  Qed.
  Lemma create_fails h h' : create_socket e att h = (None, h') -> all_failed h h'.
  Proof.
    assert (F0 : all_failed h h).
    { intros p fd x q E. exfalso. assert (L : List.length h = List.length (p ++ Tries fd x :: q ++ h)) by (rewrite <- E; reflexivity). rewrite app_length in L. cbn [List.length] in L. rewrite app_length in L. lia. }
    unfold create_socket. destruct (e_addrs e h) as [[a l]|]; [|intro Q; injection Q as <-; exact F0]. destruct (each_address e att a l _) as [r h1] eqn:E. intro Q. injection Q as -> <-.
    destruct (failed_more h (Gets (Addrs a)) h ltac:(discriminate) F0 ltac:(exists []; reflexivity)) as [F1 Q1]. destruct (each_fails h a l _ _ F1 Q1 E) as [F2 Q2].
    apply (failed_more h (Drops (Addrs a)) h1); [discriminate|exact F2|exact Q2].
  Qed.
End Attempts.

Lemma bound_really e h fd h' : create_socket e (binds e) h = (Some fd, h') ->
  exists a x h0, h' = Drops (Addrs a) :: Uses (Sock fd) :: Tries fd x :: h0 /\ e_bind e (Tries fd x :: h0) = true /\ e_listen e (Uses (Sock fd) :: Tries fd x :: h0) = true.
Proof.
  intro C. destruct (create_works e (binds e) (fun fd x h0 h1 => h1 = Uses (Sock fd) :: Tries fd x :: h0 /\ e_bind e (Tries fd x :: h0) = true /\ e_listen e h1 = true)) with (2 := C) as (a & x & h0 & h1 & -> & -> & B & L).
  - intros f x h0 h1. unfold binds. destruct (e_bind e _) eqn:B; [|discriminate]. intro Q. injection Q as Q1 <-. split; [reflexivity|]. split; [reflexivity|exact Q1].
  - exists a, x, h0. split; [reflexivity|]. split; assumption.
Qed.
Lemma unbound_really e h h' : create_socket e (binds e) h = (None, h') ->
  forall p fd x q, h' = p ++ Tries fd x :: q ++ h -> e_bind e (Tries fd x :: q ++ h) = true -> e_listen e (Uses (Sock fd) :: Tries fd x :: q ++ h) = false.
Proof.
  intros C p fd x q E. refine (create_fails e (binds e) (fun _ _ _ _ => True) (fun fd x h0 => e_bind e (Tries fd x :: h0) = true -> e_listen e (Uses (Sock fd) :: Tries fd x :: h0) = false) (fun _ _ _ _ _ => I) _ h h' C p fd x q E).
  intros f y h0 h1. unfold binds. destruct (e_bind e _) eqn:B; intro Q.
  - injection Q as L <-. exists [Uses (Sock f)], []. split; [reflexivity|]. split; [intros a b [I|[]]; discriminate I|]. split; [intros a b []|]. intros _. exact L.
  - injection Q as <-. exists [], []. split; [reflexivity|]. split; [intros a b []|]. split; [intros a b []|]. cbn [app]. congruence.
Qed.
(** What the kernel said of a connection: it is there, or it was begun and then there. *)
Lemma connected_really e h fd h' : create_socket e (connects e) h = (Some fd, h') ->
  exists x p h0, h' = p ++ Tries fd x :: h0 /\
    (e_connect e (Tries fd x :: h0) = CDone \/ e_connect e (Tries fd x :: h0) = CProgress /\ e_ready e (Uses (Sock fd) :: Tries fd x :: h0) = true).
Proof.
  intro C. destruct (create_works e (connects e) (fun fd x _ h1 => exists p h0, h1 = p ++ Tries fd x :: h0 /\
    (e_connect e (Tries fd x :: h0) = CDone \/ e_connect e (Tries fd x :: h0) = CProgress /\ e_ready e (Uses (Sock fd) :: Tries fd x :: h0) = true))) with (2 := C) as (a & x & h0 & h1 & -> & p & h2 & -> & W).
  - intros f x h0 h1. unfold connects. destruct (e_connect e _) eqn:B; [|discriminate|].
    + intro Q. injection Q as <-. exists [Uses (Sock f)], (Uses (Sock f) :: h0). split; [reflexivity|]. left. exact B.
    + destruct (FD_SETSIZE <=? f); [discriminate|]. destruct (e_ready e _) eqn:R; [|discriminate]. intro Q. injection Q as <-. exists [Uses (Sock f); Uses (Sock f)], (Uses (Sock f) :: h0). split; [reflexivity|]. right. split; assumption.
  - exists x, (Drops (Addrs a) :: p), h2. split; [reflexivity|exact W].
Qed.
Lemma unconnected_really e h h' : create_socket e (connects e) h = (None, h') ->
  forall p fd x q, h' = p ++ Tries fd x :: q ++ h -> e_connect e (Tries fd x :: q ++ h) = CFails \/
    e_connect e (Tries fd x :: q ++ h) = CProgress /\ (1024 <= fd \/ e_ready e (Uses (Sock fd) :: Tries fd x :: q ++ h) = false).
Proof.
  intros C p fd x q E. refine (create_fails e (connects e) (fun _ _ _ _ => True) (fun fd x h0 => e_connect e (Tries fd x :: h0) = CFails \/
    e_connect e (Tries fd x :: h0) = CProgress /\ (1024 <= fd \/ e_ready e (Uses (Sock fd) :: Tries fd x :: h0) = false)) (fun _ _ _ _ _ => I) _ h h' C p fd x q E).
  intros f y h0 h1. unfold connects. destruct (e_connect e _) eqn:B; [discriminate| |].
  - intro Q. injection Q as <-. exists [], [Uses (Sock f)]. split; [reflexivity|]. split; [intros a b []|]. split; [intros a b [I|[]]; discriminate I|]. left. exact B.
  - destruct (N.leb_spec FD_SETSIZE f) as [L|L].
    + intro Q. injection Q as <-. exists [], [Uses (Sock f)]. split; [reflexivity|]. split; [intros a b []|]. split; [intros a b [I|[]]; discriminate I|]. right. split; [exact B|left; exact L].
    + destruct (e_ready e _) eqn:R; [discriminate|]. intro Q. injection Q as <-. exists [Uses (Sock f)], [Uses (Sock f)]. split; [reflexivity|]. split; [intros a b [I|[]]; discriminate I|]. split; [intros a b [I|[]]; discriminate I|].
      right. split; [exact B|right; exact R].
Qed.
