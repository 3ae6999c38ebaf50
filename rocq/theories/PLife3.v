(** Proofs about the life of a server: going on, ending, stopping. *)
From Coq Require Import Permutation.
From Verif Require Import Base PBase MLife SLife PLife PLife2.
Open Scope N_scope.

(** *** Going on *)
Definition looping (p : lpc) : Prop := match p with LStart | LTest | LLoad | LWait _ | LFailed _ | LQueue _ => True | _ => False end.
Lemma looping_step : forall s e s', step s e = Some (Ok s') -> lf_sock s <> None -> looping (lf_l s) -> (forall x, lf_l s = LFailed x -> transient x) -> looping (lf_l s').
Proof.
  intros s e s' H SK L T. destruct s as [alive sock running jobs shut l w sp li opd acc taken]. destruct e as [|a|wi b|]; opened H; fields.
  - destruct l as [| | |x|e| | |x|c| | | | |]; try discriminate; try destruct L; try (destruct alive; [|discriminate]); injection H as <-; fields; try exact Logic.I; [destruct sock; [exact Logic.I|congruence]|].
    destruct (T e eq_refl) as [->|[->| ->]]; exact Logic.I.
  - destruct l as [| | |x|e| | |x|c| | | | |]; try discriminate. destruct a as [c|e]; [destruct x as [x|]; [|discriminate]; destruct (li && _); [|discriminate]|]; injection H as <-; exact Logic.I.
  - destruct (nth_error w wi) as [[|c|c|]|]; try discriminate; [destruct jobs as [|c jobs]; [destruct shut; [|discriminate]|]; injection H as <-; exact L|destruct alive; [|discriminate]; injection H as <-; exact L|].
    destruct b; [cbn [close_fd] in H; fields; destruct (in_dec N.eq_dec c opd); cbn [obind] in H; [|discriminate]|destruct alive; [|discriminate]]; injection H as <-; exact L.
  - destruct sp as [| |x|x| |]; try discriminate; try (destruct alive; [|discriminate]); [injection H as <-; exact L..| |injection H as <-; exact L].
    destruct x as [x|]; cbn [close_fd] in H; fields; [destruct (in_dec N.eq_dec x opd); cbn [obind] in H; [|discriminate]|cbn [obind] in H]; injection H as <-; exact L.
Qed.
Lemma goes_on : forall n fd es s, undisturbed es -> ~ broken es -> run (bound n fd) es = Some (Ok s) -> lf_s s = SCall /\ looping (lf_l s).
Proof.
  intros n fd es. induction es as [|e es IH] using rev_ind; intros s U B H.
  - injection H as <-. split; [reflexivity|exact Logic.I].
  - destruct (run_snoc _ _ _ _ H) as (s1 & H1 & H2). assert (U1 : undisturbed es) by (intros Q; apply U, in_or_app; left; exact Q). assert (B1 : ~ broken es) by (intros Q; apply B, broken_app, Q).
    destruct (IH _ U1 B1 H1) as [S1 L1]. destruct (hist_run _ _ _ _ H1) as (cl & cs & I & _ & _ & F & _). destruct (undisturbed_alive _ _ _ _ _ I S1) as (_ & SK & _). split.
    + destruct (step_facts _ _ _ H2) as (_ & Q & _). apply Q. split; [exact S1|]. intros ->. apply U, in_or_app. right. left. reflexivity.
    + eapply looping_step; [exact H2|congruence|exact L1|]. intros x Q. specialize (F _ Q). destruct (N.eq_dec x EMFILE) as [->|D1]; [left; reflexivity|]. destruct (N.eq_dec x EINTR) as [->|D2]; [right; left; reflexivity|]. destruct (N.eq_dec x EAGAIN) as [->|D3]; [right; right; reflexivity|].
      exfalso. apply B1. exists x. split; [exact F|]. unfold transient. tauto.
Qed.
Lemma comes_back : forall n fd es s, undisturbed es -> ~ broken es -> run (bound n fd) es = Some (Ok s) -> exists m s', (m <= 3)%nat /\ run s (repeat Listens m) = Some (Ok s') /\ waiting s'.
Proof.
  intros n fd es s U B H. destruct (goes_on _ _ _ _ U B H) as [S1 L1]. destruct (hist_run _ _ _ _ H) as (cl & cs & I & _ & BR & F & _). destruct (undisturbed_alive _ _ _ _ _ I S1) as (AL & SK & ->).
  assert (cl = false) as -> by (destruct cl; [exfalso; apply B, BR; left; reflexivity|reflexivity]).
  assert (LI : lf_listens s = true).
  { clear - H U B. revert s H U B. induction es as [|e es IH] using rev_ind; intros s H U B; [injection H as <-; reflexivity|]. destruct (run_snoc _ _ _ _ H) as (s1 & H1 & H2).
    assert (U1 : undisturbed es) by (intros Q; apply U, in_or_app; left; exact Q). assert (B1 : ~ broken es) by (intros Q; apply B, broken_app, Q). specialize (IH _ H1 U1 B1). destruct (goes_on _ _ _ _ U1 B1 H1) as [S1 L1].
    clear H H1. destruct s1 as [alive sock running jobs shut l w sp li opd acc taken]. destruct e as [|a|wi b|]; opened H2; fields.
    - destruct l as [| | |x|e| | |x|c| | | | |]; try discriminate; try destruct L1; try (destruct alive; [|discriminate]); injection H2 as <-; exact IH.
    - destruct l as [| | |x|e| | |x|c| | | | |]; try discriminate. destruct a as [c|e]; [destruct x as [x|]; [|discriminate]; destruct (li && _); [|discriminate]|]; injection H2 as <-; exact IH.
    - destruct (nth_error w wi) as [[|c|c|]|]; try discriminate; [destruct jobs as [|c jobs]; [destruct shut; [|discriminate]|]; injection H2 as <-; exact IH|destruct alive; [|discriminate]; injection H2 as <-; exact IH|].
      destruct b; [cbn [close_fd] in H2; fields; destruct (in_dec N.eq_dec c opd); cbn [obind] in H2; [|discriminate]|destruct alive; [|discriminate]]; injection H2 as <-; exact IH.
    - exfalso. apply U, in_or_app. right. left. reflexivity. }
  assert (IO : In fd (lf_opened s)) by (eapply Permutation_in; [symmetry; exact (i_open _ _ _ _ _ I)|]; left; reflexivity).
  assert (TR : forall e, lf_l s = LFailed e -> transient e). { intros x Q. specialize (F _ Q). destruct (N.eq_dec x EMFILE) as [->|D1]; [left; reflexivity|]. destruct (N.eq_dec x EINTR) as [->|D2]; [right; left; reflexivity|]. destruct (N.eq_dec x EAGAIN) as [->|D3]; [right; right; reflexivity|].
      exfalso. apply B. exists x. split; [exact F|]. unfold transient. tauto. }
  assert (WT : forall x, lf_l s = LWait x -> x = Some fd) by (intros x Q; destruct (i_wait _ _ _ _ _ I x (or_introl Q)) as [Q1|[_ Q1]]; congruence).
  clear - AL SK LI IO TR WT L1. destruct s as [alive sock running jobs shut l w sp li opd acc taken]. fields. subst alive sock li.
  destruct l as [| | |x|e| | |x|c| | | | |]; try destruct L1.
  - exists 3%nat. eexists. split; [lia|]. split; [reflexivity|]. exists fd. auto.
  - exists 2%nat. eexists. split; [lia|]. split; [reflexivity|]. exists fd. auto.
  - exists 1%nat. eexists. split; [lia|]. split; [reflexivity|]. exists fd. auto.
  - exists 0%nat. eexists. split; [lia|]. split; [reflexivity|]. exists fd. rewrite (WT x eq_refl). auto.
  - exists 3%nat. destruct (TR e eq_refl) as [->|[->| ->]]; (eexists; split; [lia|]; split; [reflexivity|]; exists fd; auto).
  - exists 3%nat. eexists. split; [lia|]. split; [reflexivity|]. exists fd. auto.
Qed.

(** *** Ending *)
Definition over (p : lpc) : Prop := match p with LFailed e => ~ transient e | LAgain | LClose | LClosing _ => True | _ => ending p end.
Lemma over_step : forall s e r, over (lf_l s) -> step s e = Some r -> connections [e] = [] /\ match r with Ok s' => over (lf_l s') | UB _ => True end.
Proof.
  intros s e r O H. destruct s as [alive sock running jobs shut l w sp li opd acc taken]. destruct e as [|a|wi b|]; opened H; fields; (split; [try reflexivity|]).
  - destruct l as [| | |x|e| | |x|c| | | | |]; try (exfalso; exact O); try discriminate; try (destruct (all_gone w); [|discriminate]); injection H as <-; try (destruct alive; [|exact Logic.I]); try exact Logic.I; try (destruct sock; exact Logic.I).
    + fields. cbn [over] in O. unfold transient in *. destruct (N.eqb_spec e EMFILE); [tauto|]. destruct (N.eqb_spec e EINTR); [tauto|]. destruct (N.eqb_spec e EAGAIN); [tauto|]. exact Logic.I.
    + destruct x as [x|]; cbn [close_fd]; fields; [destruct (in_dec N.eq_dec x opd)|]; exact Logic.I.
  - destruct l; try (exfalso; exact O); discriminate.
  - destruct l; try (exfalso; exact O); discriminate.
  - destruct (nth_error w wi) as [[|c|c|]|]; try discriminate; [destruct jobs as [|c jobs]; [destruct shut; [|discriminate]|]; injection H as <-; exact O|injection H as <-; destruct alive; [exact O|exact Logic.I]|].
    destruct b; injection H as <-; [cbn [close_fd]; fields; destruct (in_dec N.eq_dec c opd); cbn [obind]; [exact O|exact Logic.I]|destruct alive; [exact O|exact Logic.I]].
  - destruct sp as [| |x|x| |]; try discriminate; injection H as <-; try (destruct alive; [|exact Logic.I]); try exact O.
    destruct x as [x|]; cbn [close_fd]; fields; [destruct (in_dec N.eq_dec x opd)|]; try exact O; exact Logic.I.
Qed.
Lemma over_run : forall es s r, over (lf_l s) -> run s es = Some r -> connections es = [].
Proof.
  induction es as [|e es IH]; intros s r O H; [reflexivity|]. cbn [run] in H. destruct (step s e) as [r'|] eqn:E; [|discriminate]. destruct (over_step _ _ _ O E) as [C O']. change (e :: es) with ([e] ++ es). rewrite connections_app, C. cbn [app].
  destruct r' as [s'|k]; [eapply IH; eassumption|]. destruct es; [reflexivity|discriminate].
Qed.
Lemma ends : forall n fd es e es' r, ~ transient e -> run (bound n fd) (es ++ Accepts (Fails e) :: es') = Some r -> connections es' = [].
Proof.
  intros n fd es e es' r T H. rewrite run_app in H. destruct (run (bound n fd) es) as [[s|k]|]; try discriminate. cbn [run step] in H. unfold accepted_now in H. destruct (lf_l s); try discriminate. eapply over_run; [|exact H]. exact T.
Qed.

(** A connection attempt that was given up ends the server. *)
Definition aborted : list event := [Listens; Listens; Listens; Accepts (Got 4); Listens; Listens; Listens; Accepts (Fails ECONNABORTED); Listens; Listens; Listens; Listens; Works 0 false; Works 0 false; Works 0 true; Listens; Works 0 false; Listens; Listens; Listens].
Lemma ends_refuted : exists n fd es s, n <> O /\ undisturbed es /\ (forall e, In (Accepts (Fails e)) es -> e = ECONNABORTED) /\ run (bound n fd) es = Some (Ok s) /\ returned s /\ lf_opened s = [] /\ lf_taken s = [4].
Proof.
  exists 1%nat, 3, aborted. eexists. split; [discriminate|]. split; [intros Q; cbn in Q; repeat (destruct Q as [Q|Q]; [discriminate|]); exact Q|].
  split; [intros e Q; cbn in Q; repeat (destruct Q as [Q|Q]; [try discriminate; congruence|]); destruct Q|]. split; [vm_compute; reflexivity|]. split; [reflexivity|]. split; reflexivity.
Qed.

(** *** Stopping afterwards *)
Lemma back_step : forall s e r, lf_l s = LBack -> all_gone (lf_w s) = true -> step s e = Some r -> e = Stops.
Proof.
  intros s [|a|w b|] r L G H; cbn [step] in H; [|unfold accepted_now in H; rewrite L in H; discriminate| |reflexivity].
  - unfold listens in H. rewrite L in H. discriminate.
  - unfold works in H. destruct (nth_error (lf_w s) w) as [p|] eqn:E; [|discriminate]. apply nth_error_In in E. rewrite (proj2 (gone_busy _ G) _ E) in H. discriminate.
Qed.
Lemma after : forall n fd es s es' r, n <> O -> undisturbed es -> run (bound n fd) es = Some (Ok s) -> returned s -> run s es' = Some r -> exists s', r = Ok s' /\ lf_opened s' = [] /\ (es' = [Stops; Stops] <-> stopped s').
Proof.
  intros n fd es s es' r N0 U H R H'. destruct (serves _ _ _ _ U H) as (s0 & E & _ & D). injection E as <-. destruct (D N0 R) as [_ OP]. destruct (hist_run _ _ _ _ H) as (cl & cs & I & _ & _ & _ & T).
  pose proof (i_join _ _ _ _ _ I) as J. unfold returned in R. rewrite R in J. specialize (J Logic.I). assert (SC : lf_s s = SCall) by (apply T; exact U). destruct (undisturbed_alive _ _ _ _ _ I SC) as (AL & _ & _).
  assert (RN : lf_running s = false) by (destruct (lf_running s) eqn:E; [|reflexivity]; apply (i_run _ _ _ _ _ I) in E; rewrite R in E; destruct E).
  destruct es' as [|e1 es']; [injection H' as <-; exists s; split; [reflexivity|]; split; [exact OP|]; unfold stopped; rewrite SC; split; discriminate|].
  cbn [run] in H'. destruct (step s e1) as [r1|] eqn:E1; [|discriminate]. assert (e1 = Stops) as -> by exact (back_step s _ _ R J E1). cbn [step] in E1. unfold stops, touch in E1. rewrite SC, AL, RN in E1. injection E1 as <-.
  destruct es' as [|e2 es']; [injection H' as <-; eexists; split; [reflexivity|]; split; [exact OP|]; split; discriminate|].
  cbn [run] in H'. match type of H' with context [step ?y e2] => set (s1 := y) in * end. destruct (step s1 e2) as [r2|] eqn:E2; [|discriminate]. assert (e2 = Stops) as -> by exact (back_step s1 _ _ R J E2). cbn [step] in E2. unfold stops, touch in E2. cbn [s1 at_s lf_s lf_alive] in E2. rewrite AL in E2. injection E2 as <-.
  destruct es' as [|e3 es']; [injection H' as <-; eexists; split; [reflexivity|]; split; [exact OP|]; split; reflexivity|]. exfalso.
  cbn [run] in H'. match type of H' with context [step ?y e3] => set (s2 := y) in * end. destruct (step s2 e3) as [r3|] eqn:E3; [|discriminate]. assert (e3 = Stops) as -> by exact (back_step s2 _ _ R J E3). discriminate E3.
Qed.

(** *** Stopping while it listens *)
Lemma dead_stays : forall s e s', lf_alive s = false -> lf_l s <> LBack -> step s e = Some (Ok s') -> lf_alive s' = false /\ lf_l s' <> LBack.
Proof.
  intros s e s' A L H. destruct s as [alive sock running jobs shut l w sp li opd acc taken]. fields. subst alive. destruct e as [|a|wi b|]; opened H; fields.
  - destruct l as [| | |x|e| | |x|c| | | | |]; try discriminate; try (destruct (all_gone w); [|discriminate]); try (injection H as <-); try (split; [reflexivity|discriminate]).
    + split; [reflexivity|]. fields. destruct (_ || _); discriminate.
    + destruct x as [x|]; cbn [close_fd] in H; fields; [destruct (in_dec N.eq_dec x opd); cbn [obind] in H; [|discriminate]|cbn [obind] in H]; injection H as <-; (split; [reflexivity|discriminate]).
  - destruct l as [| | |x|e| | |x|c| | | | |]; try discriminate. destruct a as [c|e]; [destruct x as [x|]; [|discriminate]; destruct (li && _); [|discriminate]|]; injection H as <-; (split; [reflexivity|discriminate]).
  - destruct (nth_error w wi) as [[|c|c|]|]; try discriminate; [destruct jobs as [|c jobs]; [destruct shut; [|discriminate]|]; injection H as <-; auto|].
    destruct b; [cbn [close_fd] in H; fields; destruct (in_dec N.eq_dec c opd); cbn [obind] in H; [|discriminate]|discriminate]; injection H as <-; auto.
  - destruct sp as [| |x|x| |]; try discriminate; [injection H as <-; auto|].
    destruct x as [x|]; cbn [close_fd] in H; fields; [destruct (in_dec N.eq_dec x opd); cbn [obind] in H; [|discriminate]|cbn [obind] in H]; injection H as <-; auto.
Qed.
Lemma dead_run : forall es s s', lf_alive s = false -> lf_l s <> LBack -> run s es = Some (Ok s') -> lf_l s' <> LBack.
Proof.
  induction es as [|e es IH]; intros s s' A L H; [injection H as <-; exact L|]. cbn [run] in H. destruct (step s e) as [[s1|k]|] eqn:E; [|destruct es; discriminate|discriminate]. destruct (dead_stays _ _ _ A L E) as [A1 L1]. eapply IH; eassumption.
Qed.
Lemma never : forall n fd es s es' s', run (bound n fd) es = Some (Ok s) -> stopped s -> ~ returned s -> run s es' = Some (Ok s') -> ~ returned s'.
Proof.
  intros n fd es s es' s' H S R H'. destruct (hist_run _ _ _ _ H) as (cl & cs & I & _). apply (i_alive _ _ _ _ _ I) in S. eapply dead_run; eassumption.
Qed.

Definition stopping : list event := [Listens; Listens; Listens; Stops; Stops; Stops; Stops; Stops; Accepts (Fails EINVAL); Listens; Listens].
Lemma stop_refuted : exists n fd es, n <> O /\ run (bound n fd) es = Some (UB UseAfterFree) /\ forall e, In (Accepts (Fails e)) es -> e = EINVAL.
Proof.
  exists 8%nat, 3, stopping. split; [discriminate|]. split; [vm_compute; reflexivity|]. intros e Q; cbn in Q; repeat (destruct Q as [Q|Q]; [try discriminate; congruence|]); destruct Q.
Qed.
Definition closing_twice : list event := [Listens; Listens; Listens; Accepts (Fails ENFILE); Listens; Listens; Listens; Listens; Stops; Stops; Stops; Stops].
Lemma close_refuted : exists n fd es, n <> O /\ run (bound n fd) es = Some (UB BadFree) /\ forall e, In (Accepts (Fails e)) es -> e = ENFILE.
Proof.
  exists 8%nat, 3, closing_twice. split; [discriminate|]. split; [vm_compute; reflexivity|]. intros e Q; cbn in Q; repeat (destruct Q as [Q|Q]; [try discriminate; congruence|]); destruct Q.
Qed.
