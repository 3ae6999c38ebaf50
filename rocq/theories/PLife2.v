(** Proofs about the life of a server: schedules. *)
From Coq Require Import Permutation.
From Verif Require Import Base PBase MLife SLife PLife.
Open Scope N_scope.

Lemma run_app : forall a b s, run s (a ++ b) = match run s a with Some (Ok s') => run s' b | Some (UB k) => match b with [] => Some (UB k) | _ => None end | None => None end.
Proof.
  induction a as [|e a IH]; intros b s; [reflexivity|]. cbn [app run]. destruct (step s e) as [[s'|k]|]; [apply IH| |reflexivity]. destruct a as [|e' a]; cbn [app]; [|reflexivity]. destruct b; reflexivity.
Qed.
Lemma run_one : forall s e, run s [e] = step s e.
Proof. intros s e. cbn [run]. destruct (step s e) as [[s'|k]|]; reflexivity. Qed.
Lemma run_snoc : forall es e s r, run s (es ++ [e]) = Some r -> exists s', run s es = Some (Ok s') /\ step s' e = Some r.
Proof. intros es e s r H. rewrite run_app in H. destruct (run s es) as [[s'|k]|]; try discriminate. exists s'. rewrite run_one in H. auto. Qed.

Definition failing (p : lpc) : Prop := match p with LAgain | LClose | LClosing _ => True | _ => False end.
Definition hist (fd : N) (n : nat) (es : list event) (s : life) : Prop :=
  exists cl cs, inv fd n cl cs s /\ connections es = lf_accepted s /\ (cl = true \/ failing (lf_l s) -> broken es) /\ (forall e, lf_l s = LFailed e -> In (Accepts (Fails e)) es) /\
    (lf_s s = SCall <-> ~ In Stops es).

Lemma connections_app : forall a b, connections (a ++ b) = connections a ++ connections b.
Proof. induction a as [|[|[c|e]|w b'|] a IH]; intros b; cbn [app connections]; rewrite ?IH; reflexivity. Qed.
Lemma broken_app : forall a b, broken a -> broken (a ++ b).
Proof. intros a b (e & H & T). exists e. split; [apply in_or_app; left; exact H|exact T]. Qed.

(** What a step does to the rest. *)
Ltac opened H := unfold step, listens, accepted_now, works, stops, touch in H.
Ltac hand := cbn [failing] in *; solve [tauto | discriminate | (intros; discriminate) | (intros; left; exact Logic.I) | (match goal with |- context [match ?y with Some _ => _ | None => LShut end] => destruct y end; solve [tauto | discriminate])].
Lemma step_facts : forall s e s', step s e = Some (Ok s') ->
  lf_accepted s' = lf_accepted s ++ connections [e] /\ (lf_s s' = SCall <-> lf_s s = SCall /\ e <> Stops) /\
  (failing (lf_l s') -> failing (lf_l s) \/ exists x, lf_l s = LFailed x /\ ~ transient x) /\ (forall x, lf_l s' = LFailed x -> lf_l s = LFailed x \/ e = Accepts (Fails x)).
Proof.
  intros s e s' H. destruct s as [alive sock running jobs shut l w sp li opd acc taken]. destruct e as [|a|wi b|]; opened H; fields.
  - destruct l as [| | |x|e| | |x|c| | | | |]; try discriminate; try (destruct alive; [|discriminate]); try (destruct (all_gone w); [|discriminate]); try (injection H as <-); fields;
      try (split; [rewrite app_nil_r; reflexivity|]; split; [split; [intros Q; split; [exact Q|discriminate]|tauto]|]; split; hand).
    + split; [rewrite app_nil_r; reflexivity|]. split; [split; [intros Q; split; [exact Q|discriminate]|tauto]|]. destruct ((e =? EMFILE) || (e =? EINTR) || (e =? EAGAIN)) eqn:T; (split; [|discriminate]); [intros []|]. intros _. right. exists e. split; [reflexivity|].
      apply orb_false_iff in T. destruct T as [T T3]. apply orb_false_iff in T. destruct T as [T1 T2]. apply N.eqb_neq in T1, T2, T3. unfold transient. tauto.
    + destruct x as [x|]; cbn [close_fd obind] in H; fields; [destruct (in_dec N.eq_dec x opd); cbn [obind] in H; [|discriminate]|]; injection H as <-; fields;
        (split; [rewrite app_nil_r; reflexivity|]; split; [split; [intros Q; split; [exact Q|discriminate]|tauto]|]; split; hand).
  - destruct l as [| | |x|e| | |x|c| | | | |]; try discriminate. destruct a as [c|e].
    + destruct x as [x|]; [|discriminate]. destruct (li && _); [|discriminate]. injection H as <-. fields. split; [reflexivity|]. split; [split; [intros Q; split; [exact Q|discriminate]|tauto]|]. split; hand.
    + injection H as <-. fields. split; [rewrite app_nil_r; reflexivity|]. split; [split; [intros Q; split; [exact Q|discriminate]|tauto]|]. split; [hand|]. intros y Q. right. congruence.
  - destruct (nth_error w wi) as [[|c|c|]|]; try discriminate.
    + destruct jobs as [|c jobs]; [destruct shut; [|discriminate]|]; injection H as <-; fields; (split; [rewrite app_nil_r; reflexivity|]; split; [split; [intros Q; split; [exact Q|discriminate]|tauto]|]; split; [hand|intros y Q; left; exact Q]).
    + destruct alive; [|discriminate]; injection H as <-; fields; (split; [rewrite app_nil_r; reflexivity|]; split; [split; [intros Q; split; [exact Q|discriminate]|tauto]|]; split; [hand|intros y Q; left; exact Q]).
    + destruct b; [cbn [close_fd obind] in H; fields; destruct (in_dec N.eq_dec c opd); cbn [obind] in H; [|discriminate]|destruct alive; [|discriminate]]; injection H as <-; fields;
        (split; [rewrite app_nil_r; reflexivity|]; split; [split; [intros Q; split; [exact Q|discriminate]|tauto]|]; split; [hand|intros y Q; left; exact Q]).
  - destruct sp as [| |x|x| |]; try discriminate; try (destruct alive; [|discriminate]).
    4:{ destruct x as [x|]; cbn [close_fd obind] in H; fields; [destruct (in_dec N.eq_dec x opd); cbn [obind] in H; [|discriminate]|]; injection H as <-; fields;
        (split; [rewrite app_nil_r; reflexivity|]; split; [split; [discriminate|intros [Q _]; discriminate]|]; split; [hand|intros y Q; left; exact Q]). }
    all: injection H as <-; fields; (split; [rewrite app_nil_r; reflexivity|]; split; [split; [try discriminate; destruct running; discriminate|intros [Q R]; congruence]|]; split; [hand|intros y Q; left; exact Q]).
Qed.

Lemma inv_step : forall fd n cl cs s e r, inv fd n cl cs s -> step s e = Some r -> next fd n cl cs s r.
Proof.
  intros fd n cl cs s [|a|w b|] r I H; cbn [step] in H; [eapply listens_step|destruct (accepts_step _ _ _ _ _ _ _ I H) as (s' & -> & I'); exists cl, cs; auto|eapply works_step|eapply stops_step]; eassumption.
Qed.

Lemma hist_run : forall n fd es s, run (bound n fd) es = Some (Ok s) -> hist fd n es s.
Proof.
  intros n fd es. induction es as [|e es IH] using rev_ind; intros s H.
  - injection H as <-. exists false, false. split; [apply inv_bound|]. split; [reflexivity|]. split; [intros [Q|Q]; [discriminate|destruct Q]|]. split; [discriminate|]. split; [intros _ []|reflexivity].
  - apply run_snoc in H. destruct H as (s1 & H1 & H2). destruct (IH _ H1) as (cl & cs & I & C & B & F & T). pose proof (inv_step _ _ _ _ _ _ _ I H2) as (cl' & cs' & M & I'). destruct (step_facts _ _ _ H2) as (A1 & A2 & A3 & A4).
    assert (FB : failing (lf_l s1) \/ (exists x, lf_l s1 = LFailed x /\ ~ transient x) -> broken es) by (intros [Q|(x & Q1 & Q2)]; [apply B; right; exact Q|exists x; split; [apply F; exact Q1|exact Q2]]).
    exists cl', cs'. split; [exact I'|]. split; [rewrite connections_app, C, A1; reflexivity|]. split; [|split].
    + intros [Q|Q]; apply broken_app; [destruct (M Q) as [Q1|[x Q1]]; [apply B; left; exact Q1|apply B; right; rewrite Q1; exact Logic.I]|apply FB, A3, Q].
    + intros x Q. apply in_or_app. destruct (A4 _ Q) as [Q1| ->]; [left; apply F; exact Q1|right; left; reflexivity].
    + rewrite A2, T. split; [intros [Q1 Q2] Q; apply in_app_iff in Q; destruct Q as [Q|[Q|[]]]; [contradiction|congruence]|]. intros Q. split; [intros Q1; apply Q; apply in_or_app; left; exact Q1|]. intros ->. apply Q. apply in_or_app. right. left. reflexivity.
Qed.

Lemma gone_busy : forall l, all_gone l = true -> busy l = [] /\ forall x, In x l -> x = WGone.
Proof. intros l H. unfold all_gone in H. rewrite forallb_forall in H. assert (A : forall x, In x l -> x = WGone) by (intros x Q; specialize (H x Q); destruct x; congruence). split; [|exact A]. unfold busy. induction l as [|x l IH]; [reflexivity|]. cbn [flat_map]. rewrite (A x (or_introl eq_refl)), IH; [reflexivity| |]; intros y Q; [apply H|apply A]; right; exact Q. Qed.

(** *** Undisturbed *)
Lemma undisturbed_alive : forall fd n cl cs s, inv fd n cl cs s -> lf_s s = SCall -> lf_alive s = true /\ lf_sock s = Some fd /\ cs = false.
Proof.
  intros fd n cl cs s I H. split; [|split].
  - destruct (lf_alive s) eqn:E; [reflexivity|]. apply (i_alive _ _ _ _ _ I) in E. congruence.
  - destruct (i_sock _ _ _ _ _ I) as [Q|Q]; [exact Q|]. destruct (i_none _ _ _ _ _ I Q) as [F _]. rewrite H in F. destruct F.
  - destruct cs; [|reflexivity]. destruct (i_cs _ _ _ _ _ I eq_refl) as [[Q|Q] _]; congruence.
Qed.

Lemma wrong_end : forall n fd es k, run (bound n fd) es = Some (UB k) ->
  exists es' e s, es = es' ++ [e] /\ run (bound n fd) es' = Some (Ok s) /\ step s e = Some (UB k) /\ (k = UseAfterFree /\ stopped s /\ ~ returned s \/ k = BadFree /\ broken es' /\ In Stops es').
Proof.
  intros n fd es k H. destruct es as [|e0 es0] eqn:E; [discriminate|]. destruct (exists_last (l := e0 :: es0)) as (es' & e & E2); [discriminate|]. rewrite E2 in *. clear E2 E e0 es0 es.
  destruct (run_snoc _ _ _ _ H) as (s & H1 & H2). exists es', e, s. split; [reflexivity|]. split; [exact H1|]. split; [exact H2|]. destruct (hist_run _ _ _ _ H1) as (cl & cs & I & _ & B & _ & T).
  pose proof (inv_step _ _ _ _ _ _ _ I H2) as W. destruct W as [(-> & Q1 & Q2)|(-> & [(Q1 & ->)|(Q1 & ->)])]; [left; auto|right..]; (split; [reflexivity|]); split.
  - apply B. right. rewrite Q1. exact Logic.I.
  - destruct (in_dec (fun a b : event => ltac:(repeat decide equality) : {a = b} + {a <> b}) Stops es') as [Q|Q]; [exact Q|]. exfalso. apply T in Q. destruct (i_cs _ _ _ _ _ I eq_refl) as [[Q2|Q2] _]; congruence.
  - apply B. left. reflexivity.
  - destruct (in_dec (fun a b : event => ltac:(repeat decide equality) : {a = b} + {a <> b}) Stops es') as [Q|Q]; [exact Q|]. exfalso. apply T in Q. congruence.
Qed.

Lemma serves : forall n fd es r, undisturbed es -> run (bound n fd) es = Some r ->
  exists s, r = Ok s /\ (exists rest, connections es = lf_taken s ++ rest) /\ (n <> O -> returned s -> lf_taken s = connections es /\ lf_opened s = []).
Proof.
  intros n fd es r U H. destruct r as [s|k].
  2:{ exfalso. destruct (wrong_end _ _ _ _ H) as (es' & e & s & -> & H1 & _ & [(_ & Q & _)|(_ & _ & Q)]); apply U; apply in_or_app; left; [|exact Q].
      destruct (hist_run _ _ _ _ H1) as (cl & cs & I & _ & B & _ & T). destruct (in_dec (fun a b : event => ltac:(repeat decide equality) : {a = b} + {a <> b}) Stops es') as [Q1|Q1]; [exact Q1|]. exfalso. apply T in Q1. unfold stopped in Q. congruence. }
  exists s. split; [reflexivity|]. destruct (hist_run _ _ _ _ H) as (cl & cs & I & C & B & _ & T). split; [exists (lf_jobs s ++ lconn (lf_l s)); rewrite C; apply (i_seen _ _ _ _ _ I)|].
  intros N0 R. unfold returned in R. pose proof (i_join _ _ _ _ _ I) as J. rewrite R in J. specialize (J Logic.I). destruct (gone_busy _ J) as [GB GA].
  assert (JE : lf_jobs s = []). { apply (i_gone _ _ _ _ _ I). pose proof (i_n _ _ _ _ _ I) as L. destruct (lf_w s) as [|x l] eqn:Ew; [cbn in L; congruence|]. rewrite (GA x (or_introl eq_refl)). left. reflexivity. }
  split; [rewrite C, (i_seen _ _ _ _ _ I), JE, R; cbn [lconn app]; rewrite app_nil_r; reflexivity|].
  pose proof (i_open _ _ _ _ _ I) as O. unfold held in O. rewrite R, JE, GB in O. cbn [lconn app] in O. rewrite app_nil_r in O.
  assert (CL : cl || cs = true).
  { apply T in U. destruct (undisturbed_alive _ _ _ _ _ I U) as (_ & SK & ->). destruct cl; [reflexivity|]. exfalso. pose proof (i_end _ _ _ _ _ I) as E. rewrite R in E. destruct (E Logic.I); congruence. }
  rewrite CL in O. apply Permutation_sym, Permutation_nil in O. exact O.
Qed.
