(** Proofs about the life of a server: stopping it properly. *)
From Coq Require Import Permutation.
From Verif Require Import Base PBase MLife SLife PLife PLife2 PLife3.
Open Scope N_scope.

Definition quiet (s : life) : Prop := lf_sock s = None /\ match lf_l s with LClose | LClosing _ => False | _ => True end.
Lemma quiet_step : forall s e s', quiet s -> step s e = Some (Ok s') -> quiet s'.
Proof.
  intros s e s' [K Q] H. destruct s as [alive sock running jobs shut l w sp li opd acc taken]. fields. subst sock. destruct e as [|a|wi b|]; opened H; fields.
  - destruct l as [| | |x|e| | |x|c| | | | |]; try discriminate; try destruct Q; try (destruct alive; [|discriminate]); try (destruct (all_gone w); [|discriminate]); injection H as <-; (split; [reflexivity|]); fields; try exact Logic.I. destruct (_ || _); exact Logic.I.
  - destruct l as [| | |x|e| | |x|c| | | | |]; try discriminate. destruct a as [c|e]; [destruct x as [x|]; [|discriminate]; destruct (li && _); [|discriminate]|]; injection H as <-; (split; [reflexivity|exact Logic.I]).
  - destruct (nth_error w wi) as [[|c|c|]|]; try discriminate; [destruct jobs as [|c jobs]; [destruct shut; [|discriminate]|]; injection H as <-; (split; [reflexivity|exact Q])|destruct alive; [|discriminate]; injection H as <-; (split; [reflexivity|exact Q])|].
    destruct b; [cbn [close_fd] in H; fields; destruct (in_dec N.eq_dec c opd); cbn [obind] in H; [|discriminate]|destruct alive; [|discriminate]]; injection H as <-; (split; [reflexivity|exact Q]).
  - destruct sp as [| |x|x| |]; try discriminate; try (destruct alive; [|discriminate]); [injection H as <-; (split; [reflexivity|exact Q])..| |injection H as <-; (split; [reflexivity|exact Q])].
    destruct x as [x|]; cbn [close_fd] in H; fields; [destruct (in_dec N.eq_dec x opd); cbn [obind] in H; [|discriminate]|cbn [obind] in H]; injection H as <-; (split; [reflexivity|exact Q]).
Qed.
Lemma quiet_run : forall fd n es s s' cs, inv fd n false cs s -> quiet s -> run s es = Some (Ok s') -> exists cs', inv fd n false cs' s' /\ quiet s'.
Proof.
  intros fd n es. induction es as [|e es IH]; intros s s' cs I Q H; [injection H as <-; exists cs; auto|]. cbn [run] in H. destruct (step s e) as [[s1|k]|] eqn:E; [|destruct es; discriminate|discriminate].
  pose proof (inv_step _ _ _ _ _ _ _ I E) as (cl' & cs' & M & I'). assert (cl' = false) as ->. { destruct cl'; [|reflexivity]. destruct (M eq_refl) as [F|[x F]]; [discriminate|]. destruct Q as [_ Q]. rewrite F in Q. destruct Q. }
  eapply IH; [exact I'|eapply quiet_step; eassumption|exact H].
Qed.

(** The server is released only after the starting call has returned. *)
Lemma waited : forall n fd a s b r, n <> O -> run (bound n fd) a = Some (Ok s) -> ~ broken a -> lf_sock s = None -> run s b = Some r ->
  (forall b1 b2 s1, b = b1 ++ b2 -> run s b1 = Some (Ok s1) -> stopped s1 -> returned s1) ->
  exists s', r = Ok s' /\ (exists rest, connections a ++ connections b = lf_taken s' ++ rest) /\ (returned s' -> lf_taken s' = connections a ++ connections b /\ (stopped s' -> lf_opened s' = [])).
Proof.
  intros n fd a s b r N0 HA NB SK HB W. destruct (hist_run _ _ _ _ HA) as (cl & cs & I & C & B & _ & T).
  assert (cl = false) as -> by (destruct cl; [exfalso; apply NB, B; left; reflexivity|reflexivity]).
  assert (Q : quiet s). { split; [exact SK|]. destruct (lf_l s) eqn:E; try exact Logic.I; exfalso; apply NB, B; right; exact Logic.I. }
  destruct r as [s'|k].
  2:{ exfalso. destruct (exists_last (l := b)) as (b' & e & ->); [intros ->; discriminate|]. apply run_snoc in HB. destruct HB as (s1 & H1 & H2). destruct (quiet_run _ _ _ _ _ _ I Q H1) as (cs' & I1 & Q1).
      pose proof (inv_step _ _ _ _ _ _ _ I1 H2) as [(-> & F1 & F2)|(-> & [(F1 & F2)|(F1 & F2)])].
      - apply F2. eapply W; [reflexivity|exact H1|exact F1].
      - destruct Q1 as [_ Q1]. rewrite F1 in Q1. destruct Q1.
      - discriminate F2. }
  assert (HR : run (bound n fd) (a ++ b) = Some (Ok s')) by (rewrite run_app, HA; exact HB). destruct (hist_run _ _ _ _ HR) as (cl2 & cs2 & I2 & C2 & _). rewrite connections_app in C2.
  exists s'. split; [reflexivity|]. split; [exists (lf_jobs s' ++ lconn (lf_l s')); rewrite C2; apply (i_seen _ _ _ _ _ I2)|].
  intros R. unfold returned in R. pose proof (i_join _ _ _ _ _ I2) as J. rewrite R in J. specialize (J Logic.I). destruct (gone_busy _ J) as [GB GA].
  assert (JE : lf_jobs s' = []). { apply (i_gone _ _ _ _ _ I2). pose proof (i_n _ _ _ _ _ I2) as L. destruct (lf_w s') as [|x l] eqn:Ew; [cbn in L; congruence|]. rewrite (GA x (or_introl eq_refl)). left. reflexivity. }
  split; [rewrite C2, (i_seen _ _ _ _ _ I2), JE, R; cbn [lconn app]; rewrite app_nil_r; reflexivity|]. intros ST.
  destruct (quiet_run _ _ _ _ _ _ I Q HB) as (cs' & I1 & K1 & _). pose proof (i_open _ _ _ _ _ I1) as O. unfold held in O. rewrite R, JE, GB in O. cbn [lconn app] in O. rewrite app_nil_r in O.
  assert (cs' = true) as -> by (apply (proj2 (i_none _ _ _ _ _ I1 K1)); right; exact ST). cbn [orb] in O. apply Permutation_sym, Permutation_nil in O. exact O.
Qed.
