(** Serial schedules of the MASA's handler. *)
From Verif Require Import Base PBase MOs MBase64 MSerialize MVoucher MCrypto MRequest MHeap MArray MVoucherHeap MConfig MHandlers MConcurrent SBase64 SHeap SArray SConfig SVoucher SRequest SHandlers SConcurrent
  PHeap PConfig PAcquire POwn PRequest6 PMasa PMasa2.
Open Scope N_scope.

(** A request alone. *)
Fixpoint alone (p : prog) (h : heap) (ld : N) : outcome (Z * bytes * N * heap) :=
  match p with
  | Ret s r => Ok (s, r, ld, h)
  | Step f => match f h ld with UB k => UB k | Ok (h, ld, p) => alone p h ld end
  end.

Inductive within : nat -> prog -> Prop :=
| w_ret : forall n s r, within n (Ret s r)
| w_step : forall n f, (forall h ld h' ld' p, f h ld = Ok (h', ld', p) -> within n p) -> within (S n) (Step f).

Lemma clean_within : forall l n s r, within (List.length l + n) (clean_steps l (Ret s r)).
Proof. induction l as [|x l IH]; intros n s r; cbn [clean_steps List.length Nat.add]; constructor. intros h ld h' ld' p E. destruct (free_owned h x); [|discriminate]. injection E as <- <- <-. apply IH. Qed.
Lemma within_more : forall n p, within n p -> forall m, (n <= m)%nat -> within m p.
Proof. intros n p H. induction H as [n s r|n f H IH]; intros m L; [constructor|]. destruct m as [|m]; [lia|]. constructor. intros h ld h' ld' p E. eapply IH; [exact E|lia]. Qed.
Lemma release_within : forall l s r n, (10 <= n)%nat -> (List.length l <= 9)%nat -> within n (release_steps l s r).
Proof. intros l s r n H L. destruct n as [|n]; [lia|]. constructor. intros h ld h' ld' p E. destruct (free_owned h (OArr ld)); [|discriminate]. injection E as <- <- <-. eapply within_more; [apply (clean_within l 0)|lia]. Qed.

Ltac stage := match goal with
  | E : obind ?x _ = Ok _ |- _ => destruct x eqn:?; cbn [obind] in E; [|discriminate E]
  | E : (let (_, _) := ?x in _) = Ok _ |- _ => destruct x
  | E : (if ?b then _ else _) = Ok _ |- _ => destruct b
  | E : match ?x with Some _ => _ | None => _ end = Ok _ |- _ => destruct x
  | E : Ok _ = Ok _ |- _ => injection E as <- <- <-
  end.
Lemma masa_within : forall o w c body, within 30 (masa_steps o w c body).
Proof.
  intros o w c body. unfold masa_steps. cbv zeta.
  repeat (first [apply release_within; [lia|cbn [List.length]; lia] | constructor; intros ? ? ? ? ? E; repeat stage]).
Qed.

Lemma alone_clean : forall l k h ld, alone (clean_steps l k) h ld = obind (cleanup h l) (fun h => alone k h ld).
Proof. induction l as [|x l IH]; intros k h ld; cbn [clean_steps cleanup alone obind]; [reflexivity|]. destruct (free_owned h x) as [h1|]; cbn [obind]; [apply IH|reflexivity]. Qed.
Lemma alone_release : forall l s r h ld, alone (release_steps l s r) h ld = obind (cleanup h (OArr ld :: l)) (fun h => Ok (s, r, ld, h)).
Proof. intros l s r h ld. cbn [release_steps alone cleanup]. destruct (free_owned h (OArr ld)) as [h1|]; cbn [obind]; [apply alone_clean|reflexivity]. Qed.

Lemma masa_alone : forall o w c body h ld, alone (masa_steps o w c body) h ld = masa_requestvoucher o w c ld h body.
Proof.
  intros o w c body h ld. unfold masa_steps, masa_requestvoucher. cbv zeta.
  repeat (first [rewrite alone_release; reflexivity
    | match goal with
      | |- _ = obind ?x _ => let E := fresh in destruct x eqn:E; cbn [alone obind]; try rewrite E; cbn [obind]; [|reflexivity]
      | |- _ = (let (_, _) := ?x in _) => destruct x
      | |- _ = (if ?b then _ else _) => destruct b
      | |- _ = match ?x with Some _ => _ | None => _ end => let E := fresh in destruct x eqn:E
      end]).
Qed.

Lemma schedule_app : forall a b s, schedule (a ++ b) s = obind (schedule a s) (schedule b).
Proof. induction a as [|i a IH]; intros b s; cbn [schedule app obind]; [reflexivity|]. destruct (step i s) as [s'|]; cbn [obind]; [apply IH|reflexivity]. Qed.
Lemma nth_replace : forall A n (x : A) l, (n < List.length l)%nat -> nth_error (replace_nth n x l) n = Some x.
Proof. induction n as [|n IH]; intros x [|y l] H; cbn [List.length replace_nth nth_error] in *; try lia; [reflexivity|]. apply IH. lia. Qed.
Lemma nth_replace_other : forall A n m (x : A) l, n <> m -> nth_error (replace_nth n x l) m = nth_error l m.
Proof. induction n as [|n IH]; intros [|m] x [|y l] H; cbn [replace_nth nth_error]; try (exfalso; congruence); try reflexivity. apply IH. congruence. Qed.
Lemma replace_same : forall A n (x : A) l, nth_error l n = Some x -> replace_nth n x l = l.
Proof. induction n as [|n IH]; intros x [|y l] H; cbn [replace_nth nth_error] in *; try discriminate; [congruence|]. f_equal. apply IH. exact H. Qed.
Lemma replace_twice : forall A n (x y : A) l, replace_nth n x (replace_nth n y l) = replace_nth n x l.
Proof. induction n as [|n IH]; intros x y [|z l]; cbn [replace_nth]; try reflexivity. f_equal. apply IH. Qed.
Lemma replace_length : forall A n (x : A) l, List.length (replace_nth n x l) = List.length l.
Proof. induction n as [|n IH]; intros x [|y l]; cbn [replace_nth List.length]; try reflexivity. f_equal. apply IH. Qed.

Lemma schedule_ret : forall k i h ld ps s r, nth_error ps i = Some (Ret s r) -> schedule (repeat i k) (h, ld, ps) = Ok (h, ld, ps).
Proof. induction k as [|k IH]; intros i h ld ps s r H; cbn [repeat schedule obind step]; [reflexivity|]. rewrite H. cbn [obind]. eapply IH. exact H. Qed.

(** A request given enough steps does what it does alone. *)
Lemma schedule_alone : forall n p, within n p -> forall k i h ld ps, (n <= k)%nat -> nth_error ps i = Some p ->
  schedule (repeat i k) (h, ld, ps) = obind (alone p h ld) (fun x => let '(s, r, ld, h) := x in Ok (h, ld, replace_nth i (Ret s r) ps)).
Proof.
  intros n p W. induction W as [n s r|n f W IH]; intros k i h ld ps L H.
  - cbn [alone obind]. rewrite (schedule_ret _ _ _ _ _ _ _ H). rewrite replace_same by exact H. reflexivity.
  - destruct k as [|k]; [lia|]. cbn [repeat schedule step alone]. rewrite H. destruct (f h ld) as [[[h1 l1] p1]|u] eqn:E; cbn [obind]; [|reflexivity].
    assert (Len : (i < List.length ps)%nat) by (apply nth_error_Some; congruence).
    rewrite (IH h ld h1 l1 p1 E k i h1 l1 (replace_nth i p1 ps)) by (try lia; apply nth_replace; exact Len).
    destruct (alone p1 h1 l1) as [[[[s r] l2] h2]|u]; cbn [obind]; [|reflexivity]. rewrite replace_twice. reflexivity.
Qed.

Definition plan_bodies (bodies : list bytes) (pl : plan) : list bytes := map (fun e => nth (fst e) bodies []) pl.
Fixpoint put_answers (pl : plan) (answers : list (Z * bytes)) (ps : list prog) : list prog :=
  match pl, answers with
  | e :: pl, a :: r => put_answers pl r (replace_nth (fst e) (Ret (fst a) (snd a)) ps)
  | _, _ => ps
  end.

Lemma serial_run : forall o w c bodies pl h ld ps, NoDup (map fst pl) -> Forall (fun e => (30 <= snd e)%nat /\ nth_error ps (fst e) = Some (masa_steps o w c (nth (fst e) bodies []))) pl ->
  match masa_serves o w c ld h (plan_bodies bodies pl) with
  | UB k => schedule (steps_of pl) (h, ld, ps) = UB k
  | Ok (answers, h') => exists ld', schedule (steps_of pl) (h, ld, ps) = Ok (h', ld', put_answers pl answers ps)
  end.
Proof.
  intros o w c bodies pl. induction pl as [|[i k] pl IH]; intros h ld ps ND F.
  { cbn. exists ld. reflexivity. }
  inversion ND as [|? ? NI ND2]; subst. inversion F as [|? ? [K1 K2] F2]; subst. cbn [fst snd] in *.
  assert (EQ : masa_serves o w c ld h (plan_bodies bodies ((i, k) :: pl)) = obind (masa_requestvoucher o w c ld h (nth i bodies [])) (fun x =>
      let '(status, response, ld, h) := x in
      obind (masa_serves o w c ld h (plan_bodies bodies pl)) (fun y => Ok ((status, response) :: fst y, snd y)))) by reflexivity.
  rewrite EQ. clear EQ. unfold steps_of. cbn [map List.concat fst snd]. rewrite schedule_app. rewrite (schedule_alone _ _ (masa_within o w c _) k i h ld ps K1 K2), masa_alone.
  destruct (masa_requestvoucher o w c ld h (nth i bodies [])) as [[[[s r] l1] h1]|u]; cbn [obind]; [|cbv beta iota; reflexivity].
  specialize (IH h1 l1 (replace_nth i (Ret s r) ps) ND2). fold (steps_of pl).
  assert (F3 : Forall (fun e => (30 <= snd e)%nat /\ nth_error (replace_nth i (Ret s r) ps) (fst e) = Some (masa_steps o w c (nth (fst e) bodies []))) pl).
  { rewrite Forall_forall in *. intros e He. destruct (F2 e He) as [A1 A2]. split; [exact A1|]. rewrite nth_replace_other; [exact A2|]. intros ->. apply NI. apply in_map. exact He. }
  specialize (IH F3). destruct (masa_serves o w c l1 h1 (plan_bodies bodies pl)) as [[ans h2]|u]; cbn [obind fst snd put_answers]; exact IH.
Qed.

Lemma put_answers_other : forall pl answers ps i, ~ In i (map fst pl) -> nth_error (put_answers pl answers ps) i = nth_error ps i.
Proof.
  induction pl as [|[j k] pl IH]; intros answers ps i H; cbn [put_answers]; [destruct answers; reflexivity|]. destruct answers as [|a r]; [reflexivity|].
  cbn [map fst In] in H. rewrite IH by tauto. apply nth_replace_other. cbn [fst]. intros E. apply H. left. exact E.
Qed.
Lemma put_answers_in : forall (R : bytes -> Z * bytes -> Prop) bodies pl answers ps, NoDup (map fst pl) -> Forall (fun e => (fst e < List.length ps)%nat) pl ->
  Forall2 R (plan_bodies bodies pl) answers -> forall i, In i (map fst pl) -> exists s r, nth_error (put_answers pl answers ps) i = Some (Ret s r) /\ R (nth i bodies []) (s, r).
Proof.
  intros R bodies pl. induction pl as [|[j k] pl IH]; intros answers ps ND F FA i Hi; [contradiction|].
  inversion ND as [|? ? NI ND2]; subst. inversion F as [|? ? F1 F2]; subst. cbn [plan_bodies map fst] in *. inversion FA as [|? a ? r RA FA2]; subst. cbn [put_answers fst].
  destruct Hi as [->|Hi].
  - exists (fst a), (snd a). split; [|destruct a; exact RA]. pose proof (put_answers_other pl r (replace_nth i (Ret (fst a) (snd a)) ps) i NI) as Q. rewrite Q. apply nth_replace. exact F1.
  - apply IH; [exact ND2| |exact FA2|exact Hi]. eapply Forall_impl; [|exact F2]. intros e L. rewrite replace_length. exact L.
Qed.
Lemma put_answers_length : forall pl answers ps, List.length (put_answers pl answers ps) = List.length ps.
Proof. induction pl as [|e pl IH]; intros [|a r] ps; cbn [put_answers]; try reflexivity. rewrite IH. apply replace_length. Qed.

Lemma serial_plan : forall o w c f bodies pl h, ossl_sane o -> world_ok w -> heap_wf h -> plenty h -> masa_config h c f -> Forall bytes_ok bodies -> serial (List.length bodies) pl ->
  (exists e, In e pl /\ masa_crash w f (nth (fst e) bodies [])) /\ (exists k, schedule (steps_of pl) (h, 0, map (masa_steps o w c) bodies) = UB k) \/
  ~ (exists e, In e pl /\ masa_crash w f (nth (fst e) bodies [])) /\ (exists h' ld' ps, schedule (steps_of pl) (h, 0, map (masa_steps o w c) bodies) = Ok (h', ld', ps) /\
    kept (hp_next h) h h' /\ no_leak (hp_next h) h' /\
    forall e, In e pl -> exists s r, nth_error ps (fst e) = Some (Ret s r) /\ masa_answer o w f (nth (fst e) bodies []) (s, r)).
Proof.
  intros o w c f bodies pl h OS WO W PL MC B [ND F].
  assert (F1 : Forall (fun e => (30 <= snd e)%nat /\ nth_error (map (masa_steps o w c) bodies) (fst e) = Some (masa_steps o w c (nth (fst e) bodies []))) pl).
  { rewrite Forall_forall in *. intros e He. destruct (F e He) as [A1 A2]. split; [exact A2|]. rewrite nth_error_map, (nth_error_nth' bodies [] A1). reflexivity. }
  assert (B2 : Forall bytes_ok (plan_bodies bodies pl)).
  { unfold plan_bodies. rewrite Forall_map. rewrite Forall_forall in *. intros e He. destruct (F e He) as [A1 _]. apply B. apply nth_In. exact A1. }
  assert (EX : Exists (masa_crash w f) (plan_bodies bodies pl) <-> exists e, In e pl /\ masa_crash w f (nth (fst e) bodies [])).
  { unfold plan_bodies. rewrite Exists_map, Exists_exists. reflexivity. }
  pose proof (serial_run o w c bodies pl h 0 _ ND F1) as R.
  destruct (masa_sequence o w c f (plan_bodies bodies pl) 0 h OS WO W PL MC B2 (or_introl eq_refl)) as [[C [k E]]|[NC (ans & h2 & E & X & S & FA)]]; rewrite E in R.
  - left. split; [apply EX; exact C|]. exists k. exact R.
  - right. split; [rewrite <- EX; exact NC|]. destruct R as [ld' R]. exists h2, ld', (put_answers pl ans (map (masa_steps o w c) bodies)). split; [exact R|]. split; [exact (proj1 (proj2 (proj2 X)))|]. split; [eapply st_leak; exact S|].
    intros e He. apply (put_answers_in (masa_answer o w f)); [exact ND| |exact FA|apply in_map; exact He]. rewrite Forall_forall in *. intros e' He'. rewrite map_length. exact (proj1 (F e' He')).
Qed.

(** Two good requests; the second loads the certificate of the context before the
    first has released it. *)
Definition good_request : bytes := rfc_encode outer_cms.
Definition overlap : list nat := repeat 0%nat 10 ++ repeat 1%nat 10 ++ repeat 0%nat 3 ++ repeat 1%nat 1.
Lemma overlap_crash : schedule overlap (masa_case, 0, map (masa_steps toy masa_world masa_case_conf) [good_request; good_request]) = UB UseAfterFree.
Proof. vm_compute. reflexivity. Qed.

Lemma interleaving_refuted : exists o w c f h bodies is k, ossl_sane o /\ world_ok w /\ heap_wf h /\ plenty h /\ masa_config h c f /\ Forall bytes_ok bodies /\
  (forall body, In body bodies -> exists text ld' h', masa_requestvoucher o w c 0 h body = Ok (200%Z, text, ld', h')) /\
  schedule is (h, 0, map (masa_steps o w c) bodies) = UB k.
Proof.
  exists toy, masa_world, masa_case_conf, masa_case_files, masa_case, [good_request; good_request], overlap, UseAfterFree.
  split; [exact toy_sane|]. split; [exact masa_world_ok|]. split; [exact masa_case_wf|]. split; [intros a; reflexivity|]. split; [exact masa_case_config|].
  split; [repeat (apply Forall_cons; [apply bytes_okb_ok; vm_compute; reflexivity|]); apply Forall_nil|].
  split; [|exact overlap_crash]. assert (A : exists text ld' h', masa_requestvoucher toy masa_world masa_case_conf 0 masa_case good_request = Ok (200%Z, text, ld', h')) by (do 3 eexists; vm_compute; reflexivity).
  intros body [<-|[<-|[]]]; exact A.
Qed.
