(** Proofs about the life of a server. *)
From Coq Require Import Permutation.
From Verif Require Import Base PBase MLife SLife.
Open Scope N_scope.

(** *** Connections held *)
Definition wconn (p : wpc) : list N := match p with WNew c | WServe c => [c] | _ => [] end.
Definition busy (l : list wpc) : list N := flat_map wconn l.
Definition lconn (p : lpc) : list N := match p with LQueue c => [c] | _ => [] end.
Definition held (s : life) : list N := lconn (lf_l s) ++ lf_jobs s ++ busy (lf_w s).

Lemma worker_at : forall l w p, nth_error l w = Some p -> exists rest, Permutation (busy l) (wconn p ++ rest) /\ forall q, Permutation (busy (set_nth w q l)) (wconn q ++ rest).
Proof.
  induction l as [|x l IH]; intros w p H; [destruct w; discriminate|]. destruct w as [|w].
  - injection H as ->. exists (busy l). split; [reflexivity|]. intros q. reflexivity.
  - cbn [nth_error] in H. destruct (IH _ _ H) as (rest & P1 & P2). exists (wconn x ++ rest). cbn [set_nth]. unfold busy in *. cbn [flat_map]. split.
    + rewrite P1. apply Permutation_app_swap_app.
    + intros q. rewrite P2. apply Permutation_app_swap_app.
Qed.
Lemma set_nth_in : forall A (l : list A) w x y, In y (set_nth w x l) -> y = x \/ In y l.
Proof. induction l as [|a l IH]; intros [|w] x y H; cbn [set_nth] in H; try contradiction; cbn [In] in *; [destruct H as [<-|H]; auto|]. destruct H as [<-|H]; auto. destruct (IH _ _ _ H); auto. Qed.
Lemma set_nth_length : forall A (l : list A) w x, List.length (set_nth w x l) = List.length l.
Proof. induction l as [|a l IH]; intros [|w] x; cbn [set_nth List.length]; [reflexivity..|]. f_equal. apply IH. Qed.

(** *** Invariant: [cl], [cs]: the listening socket was closed by the listening
    thread, by the stopping thread *)
Definition ending (p : lpc) : Prop := match p with LShut | LJoin | LIdle | LDone | LBack => True | _ => False end.
Definition joined (p : lpc) : Prop := match p with LIdle | LDone | LBack => True | _ => False end.
Definition inside (p : lpc) : Prop := match p with LStart | LDone | LBack => False | _ => True end.
Definition swapped (p : spc) : Prop := match p with SCall | SSwap => False | _ => True end.
Record inv (fd : N) (n : nat) (cl cs : bool) (s : life) : Prop := {
  i_nodup : NoDup (lf_opened s);
  i_open : Permutation (lf_opened s) ((if cl || cs then [] else [fd]) ++ held s);
  i_cl : cl = true -> ending (lf_l s) /\ lf_listens s = false;
  i_cs : cs = true -> (lf_s s = SDelete \/ lf_s s = SEnd) /\ lf_sock s = None;
  i_not : cl && cs = false;
  i_sock : lf_sock s = Some fd \/ lf_sock s = None;
  i_none : lf_sock s = None -> swapped (lf_s s) /\ (lf_s s = SDelete \/ lf_s s = SEnd -> cs = true);
  i_swap : forall x, lf_s s = SShut x \/ lf_s s = SClose x -> x = Some fd /\ lf_sock s = None;
  i_wait : forall x, lf_l s = LWait x \/ lf_l s = LClosing x -> x = Some fd \/ x = None /\ lf_sock s = None;
  i_alive : lf_alive s = false <-> lf_s s = SEnd;
  i_run : lf_running s = true <-> inside (lf_l s);
  i_seen : lf_accepted s = lf_taken s ++ lf_jobs s ++ lconn (lf_l s);
  i_shut : lf_shut s = true <-> lf_l s = LJoin \/ joined (lf_l s);
  i_gone : In WGone (lf_w s) -> lf_shut s = true /\ lf_jobs s = [];
  i_join : joined (lf_l s) -> all_gone (lf_w s) = true;
  i_n : List.length (lf_w s) = n;
  i_fd : ~ In fd (held s);
  i_listens : lf_listens s = true -> cl || cs = false;
  i_down : forall x, lf_s s = SClose x -> lf_listens s = false;
  i_end : ending (lf_l s) -> cl = true \/ lf_sock s = None }.

Lemma inv_bound : forall n fd, inv fd n false false (bound n fd).
Proof.
  intros n fd. unfold bound. assert (B : busy (repeat WFree n) = []) by (induction n; [reflexivity|exact IHn]). assert (G : ~ In WGone (repeat WFree n)) by (intros H; apply repeat_spec in H; discriminate).
  split; cbn [lf_opened lf_l lf_s lf_sock lf_listens lf_alive lf_running lf_accepted lf_taken lf_jobs lf_shut lf_w].
  - repeat constructor. intros [].
  - unfold held. cbn [lf_l lf_jobs lf_w lconn app]. rewrite B. reflexivity.
  - discriminate.
  - discriminate.
  - reflexivity.
  - left. reflexivity.
  - discriminate.
  - intros x [Q|Q]; discriminate.
  - intros x [Q|Q]; discriminate.
  - split; discriminate.
  - cbn. split; [discriminate|intros []].
  - reflexivity.
  - split; [discriminate|]. intros [Q|Q]; [discriminate|destruct Q].
  - intros Q. contradiction.
  - intros [].
  - apply repeat_length.
  - unfold held. cbn [lf_l lf_jobs lf_w lconn app]. rewrite B. intros [].
  - reflexivity.
  - discriminate.
  - intros [].
Qed.

Lemma remove_in : forall (x : N) l, NoDup l -> In x l -> Permutation l (x :: remove N.eq_dec x l).
Proof.
  intros x l H. induction H as [|a l Na H IH]; intros I; [contradiction|]. cbn [remove]. destruct (N.eq_dec x a) as [->|D].
  - rewrite notin_remove by exact Na. reflexivity.
  - destruct I as [Q|I]; [congruence|]. rewrite (IH I) at 1. apply perm_swap.
Qed.
Lemma remove_nodup : forall (x : N) l, NoDup l -> NoDup (remove N.eq_dec x l).
Proof.
  intros x l H. induction H as [|a l Na H IH]; [constructor|]. cbn [remove]. destruct (N.eq_dec x a); [exact IH|]. constructor; [|exact IH]. intros Q. apply in_remove in Q. tauto.
Qed.

(** *** Steps *)
Definition wrong (fd : N) (cl cs : bool) (s : life) (k : ubkind) : Prop :=
  k = UseAfterFree /\ lf_s s = SEnd /\ lf_l s <> LBack \/
  k = BadFree /\ (lf_l s = LClosing (Some fd) /\ cs = true \/ lf_s s = SClose (Some fd) /\ cl = true).
Definition next (fd : N) (n : nat) (cl cs : bool) (s : life) (r : outcome life) : Prop :=
  match r with Ok s' => exists cl' cs', (cl' = true -> cl = true \/ exists x, lf_l s = LClosing x) /\ inv fd n cl' cs' s' | UB k => wrong fd cl cs s k end.

Ltac fields := cbn [at_l at_s at_w runs_now no_listening lf_alive lf_sock lf_running lf_jobs lf_shut lf_l lf_w lf_s lf_listens lf_opened lf_accepted lf_taken held lconn app ending joined inside swapped] in *.
Ltac easy_field := first [assumption | reflexivity | discriminate | (intros; discriminate) | tauto | (intros; tauto) | (intros ? [Q|Q]; discriminate) | (split; intros; discriminate) | (split; [discriminate|intros []; fail]) | intuition (congruence || discriminate || auto)].

Ltac hop a b := exists a, b; split; [intros; try discriminate; fields; eauto|].
Lemma listens_step : forall fd n cl cs s r, inv fd n cl cs s -> listens s = Some r -> next fd n cl cs s r.
Proof.
  intros fd n cl cs s r Hi H. destruct s as [alive sock running jobs shut l w sp li opened acc taken].
  destruct Hi as [H1 H2 H3 H4 H5 H6 H7 H8 H9 H10 H11 H12 H13 H14 H15 H16 H17 H18 H19 H20]. unfold held in *. fields. unfold listens in H. fields.
  assert (DEAD : alive = false -> l <> LBack -> r = UB UseAfterFree -> next fd n cl cs (mk_life alive sock running jobs shut l w sp li opened acc taken) r) by (intros Q1 Q2 ->; left; split; [reflexivity|]; split; [apply H10; exact Q1|exact Q2]).
  destruct l as [| | |x|e| | |x|c| | | | |]; try discriminate; try (injection H as <-); unfold touch in *; fields;
    try (destruct alive eqn:Ea; [|apply DEAD; [reflexivity|discriminate|reflexivity]]).
  all: try match goal with |- context [if ?b then LTest else LAgain] => destruct b end. all: try match goal with |- context [match ?y with Some _ => _ | None => LShut end] => destruct y end.
  all: try solve [hop cl cs; fields; split; unfold held; fields; solve [easy_field]].
  - destruct (H9 x (or_intror eq_refl)) as [->|[-> Hs]].
    + unfold close_fd. fields. destruct (in_dec N.eq_dec fd opened) as [I|I]; cbn [obind].
      * assert (NC : cl || cs = false). { destruct (cl || cs) eqn:E; [|reflexivity]. exfalso. apply H17. eapply Permutation_in; [exact H2|]. exact I. }
        rewrite NC in H2. apply orb_false_iff in NC. destruct NC as [-> ->]. hop true false. pose proof (remove_in fd opened H1 I) as RM.
        split; unfold held; fields; try solve [easy_field].
        -- apply remove_nodup. exact H1.
        -- cbn [orb app]. rewrite RM in H2. apply Permutation_cons_inv in H2. exact H2.
      * right. split; [reflexivity|]. left. fields. split; [reflexivity|]. destruct cs; [reflexivity|]. exfalso. apply I. destruct cl; [destruct (H3 eq_refl) as [Q _]; destruct Q|]. eapply Permutation_in; [symmetry; exact H2|]. left. reflexivity.
    + cbn [close_fd obind]. hop cl cs. split; unfold held; fields; try solve [easy_field].
  - hop cl cs. split; unfold held; fields; try solve [easy_field].
    + rewrite H2. apply Permutation_app_head. rewrite <- app_assoc. apply Permutation_app_swap_app with (l1 := [c]).
    + rewrite H12, app_nil_r. reflexivity.
    + intros Q. apply H17. apply in_app_iff in Q. destruct Q as [Q|Q]; [apply in_app_iff in Q; destruct Q as [Q|[<-|[]]]; [right; apply in_or_app; left; exact Q|left; reflexivity]|right; apply in_or_app; right; exact Q].
  - destruct (all_gone w) eqn:G; [|discriminate]. injection H as <-. hop cl cs. split; unfold held; fields; solve [easy_field].
Qed.

Lemma accepts_step : forall fd n cl cs s a r, inv fd n cl cs s -> accepted_now s a = Some r -> exists s', r = Ok s' /\ inv fd n cl cs s'.
Proof.
  intros fd n cl cs s a r Hi H. destruct s as [alive sock running jobs shut l w sp li opened acc taken].
  destruct Hi as [H1 H2 H3 H4 H5 H6 H7 H8 H9 H10 H11 H12 H13 H14 H15 H16 H17 H18 H19 H20]. unfold held in *. fields. unfold accepted_now in H. fields. destruct l as [| | |x|e| | |x|c| | | | |]; try discriminate.
  destruct a as [c|e]; [|injection H as <-; eexists; split; [reflexivity|]; split; unfold held; fields; solve [easy_field]].
  destruct x as [x|]; [|discriminate]. destruct li; [|discriminate]. destruct (in_dec N.eq_dec c opened) as [I|I]; [discriminate|]. cbn [andb negb] in H. injection H as <-. eexists. split; [reflexivity|].
  pose proof (H18 eq_refl) as NC. rewrite NC in *.
  split; unfold held; fields; try solve [easy_field].
  - constructor; assumption.
  - rewrite NC. rewrite H2. cbn [app]. apply perm_swap.
  - rewrite H12, app_nil_r, <- app_assoc. reflexivity.
  - intros [Q|Q]; [|contradiction]. apply I. subst c. eapply Permutation_in; [symmetry; exact H2|]. left. reflexivity.
Qed.

Lemma gone_set : forall l w p, nth_error l w = Some p -> p <> WGone -> all_gone l = false.
Proof.
  induction l as [|x l IH]; intros [|w] p H D; try discriminate; cbn [nth_error] in H.
  - injection H as ->. unfold all_gone. cbn [forallb]. destruct p; try reflexivity. congruence.
  - unfold all_gone in *. cbn [forallb]. rewrite (IH _ _ H D). apply andb_false_r.
Qed.

Lemma works_step : forall fd n cl cs s w b r, inv fd n cl cs s -> works s w b = Some r -> next fd n cl cs s r.
Proof.
  intros fd n cl cs s w b r Hi H. destruct s as [alive sock running jobs shut l ws sp li opened acc taken].
  destruct Hi as [H1 H2 H3 H4 H5 H6 H7 H8 H9 H10 H11 H12 H13 H14 H15 H16 H17 H18 H19 H20]. unfold held in *. fields. unfold works in H. fields.
  destruct (nth_error ws w) as [p|] eqn:E; [|discriminate]. destruct (worker_at _ _ _ E) as (rest & P1 & P2).
  assert (NJ : p <> WGone -> ~ joined l) by (intros D J; rewrite (gone_set _ _ _ E D) in H15; specialize (H15 J); discriminate).
  assert (GS : forall q, q <> WGone -> In WGone (set_nth w q ws) -> In WGone ws) by (intros q D Q; apply set_nth_in in Q; destruct Q as [Q|Q]; [congruence|exact Q]).
  assert (DEAD : alive = false -> p <> WGone -> r = UB UseAfterFree -> next fd n cl cs (mk_life alive sock running jobs shut l ws sp li opened acc taken) r).
  { intros Q1 Q2 ->. left. split; [reflexivity|]. split; [apply H10; exact Q1|]. fields. intros ->. apply (NJ Q2). exact Logic.I. }
  destruct p as [|c|c|]; try discriminate.
  - specialize (NJ ltac:(discriminate)). destruct jobs as [|c jobs].
    + destruct shut; [|discriminate]. injection H as <-. hop cl cs. split; unfold held; fields; try solve [easy_field].
      * rewrite H2. apply Permutation_app_head, Permutation_app_head. rewrite P1, P2. reflexivity.
      * rewrite set_nth_length. exact H16.
      * intros Q. apply H17. apply in_app_iff in Q. apply in_or_app. destruct Q as [Q|Q]; [left; exact Q|right]. eapply Permutation_in; [symmetry; exact P1|]. eapply Permutation_in; [exact (P2 WGone)|exact Q].
    + injection H as <-. hop cl cs. assert (PQ : Permutation (lconn l ++ (c :: jobs) ++ busy ws) (lconn l ++ jobs ++ busy (set_nth w (WNew c) ws))).
      { apply Permutation_app_head. rewrite P1, P2. cbn [wconn app]. apply Permutation_middle. }
      split; unfold held; fields; try solve [easy_field].
      * rewrite H2. apply Permutation_app_head. exact PQ.
      * rewrite H12, <- app_assoc. reflexivity.
      * intros Q. apply GS in Q; [|discriminate]. destruct (H14 Q) as [_ Q1]. discriminate.
      * rewrite set_nth_length. exact H16.
      * intros Q. apply H17. eapply Permutation_in; [symmetry; exact PQ|exact Q].
  - specialize (NJ ltac:(discriminate)). injection H as <-. unfold touch in *. fields. destruct alive eqn:Ea; [|apply DEAD; [reflexivity|discriminate|reflexivity]]. hop cl cs.
    assert (PQ : Permutation (lconn l ++ jobs ++ busy ws) (lconn l ++ jobs ++ busy (set_nth w (WServe c) ws))) by (do 2 apply Permutation_app_head; rewrite P1, P2; reflexivity).
    split; unfold held; fields; try solve [easy_field].
    + rewrite H2. apply Permutation_app_head. exact PQ.
    + intros Q. apply GS in Q; [|discriminate]. exact (H14 Q).
    + rewrite set_nth_length. exact H16.
    + intros Q. apply H17. eapply Permutation_in; [symmetry; exact PQ|exact Q].
  - specialize (NJ ltac:(discriminate)). destruct b.
    + injection H as <-. unfold close_fd. fields.
      assert (PQ : Permutation (lconn l ++ jobs ++ busy ws) (c :: lconn l ++ jobs ++ busy (set_nth w WFree ws))).
      { rewrite P1, P2. cbn [wconn app]. rewrite <- Permutation_middle. rewrite <- Permutation_middle. reflexivity. }
      assert (I : In c opened). { eapply Permutation_in; [symmetry; exact H2|]. apply in_or_app. right. eapply Permutation_in; [symmetry; exact PQ|]. left. reflexivity. }
      destruct (in_dec N.eq_dec c opened) as [I'|I']; [|contradiction]. cbn [obind]. pose proof (remove_in c opened H1 I) as RM. hop cl cs.
      split; unfold held; fields; try solve [easy_field].
      * apply remove_nodup. exact H1.
      * apply (Permutation_cons_inv (a := c)). rewrite <- RM, H2, PQ. symmetry. apply Permutation_middle.
      * intros Q. apply GS in Q; [|discriminate]. exact (H14 Q).
      * rewrite set_nth_length. exact H16.
      * intros Q. apply H17. eapply Permutation_in; [symmetry; exact PQ|]. right. exact Q.
    + injection H as <-. unfold touch in *. fields. destruct alive eqn:Ea; [|apply DEAD; [reflexivity|discriminate|reflexivity]]. hop cl cs. split; unfold held; fields; solve [easy_field].
Qed.

Lemma stops_step : forall fd n cl cs s r, inv fd n cl cs s -> stops s = Some r -> next fd n cl cs s r.
Proof.
  intros fd n cl cs s r Hi H. destruct s as [alive sock running jobs shut l w sp li opened acc taken].
  destruct Hi as [H1 H2 H3 H4 H5 H6 H7 H8 H9 H10 H11 H12 H13 H14 H15 H16 H17 H18 H19 H20]. unfold held in *. fields. unfold stops in H. fields.
  assert (AL : sp <> SEnd -> alive = true) by (intros D; destruct alive; [reflexivity|]; exfalso; apply D, H10; reflexivity).
  destruct sp as [| |x|x| |]; try discriminate; injection H as <-; unfold touch; fields; rewrite ?(AL ltac:(discriminate)) in *.
  - hop cl cs. assert (sock = Some fd) as -> by (destruct H6 as [Q|Q]; [exact Q|destruct (H7 Q) as [F _]; destruct F]). assert (cs = false) as -> by (destruct cs; [destruct (H4 eq_refl) as [_ Q]; discriminate|reflexivity]). destruct running; split; unfold held; fields; solve [easy_field].
  - assert (sock = Some fd) as -> by (destruct H6 as [Q|Q]; [exact Q|destruct (H7 Q) as [F _]; destruct F]). assert (cs = false) as -> by (destruct cs; [destruct (H4 eq_refl) as [[Q|Q] _]; discriminate|reflexivity]).
    hop cl false. split; unfold held; fields; try solve [easy_field]. intros y Q. destruct (H9 y Q) as [Q1|[_ Q1]]; [left; exact Q1|discriminate].
  - destruct (H8 x (or_introl eq_refl)) as [-> Q2]. assert (cs = false) as -> by (destruct cs; [destruct (H4 eq_refl) as [[Q|Q] _]; discriminate|reflexivity]). hop cl false. split; unfold held; fields; try solve [easy_field].
  - destruct (H8 x (or_intror eq_refl)) as [-> Q2]. assert (cs = false) as -> by (destruct cs; [destruct (H4 eq_refl) as [[Q|Q] _]; discriminate|reflexivity]). unfold close_fd. fields. destruct (in_dec N.eq_dec fd opened) as [I|I]; cbn [obind].
    + assert (cl = false) as -> by (destruct cl; [exfalso; apply H17; eapply Permutation_in; [exact H2|exact I]|reflexivity]). hop false true. pose proof (remove_in fd opened H1 I) as RM.
      split; unfold held; fields; try solve [easy_field].
      * apply remove_nodup. exact H1.
      * cbn [orb app] in *. rewrite RM in H2. apply Permutation_cons_inv in H2. exact H2.
      * intros Q. rewrite (H19 _ eq_refl) in Q. discriminate.
    + right. split; [reflexivity|]. right. fields. split; [reflexivity|]. destruct cl; [reflexivity|]. exfalso. apply I. eapply Permutation_in; [symmetry; exact H2|]. left. reflexivity.
  - hop cl cs. split; unfold held; fields; try solve [easy_field].
Qed.
