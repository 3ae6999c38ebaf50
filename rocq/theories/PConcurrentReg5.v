(** Concurrent requests to the registrar: every request gets the answer it gets
    alone. *)
From Verif Require Import Base PBase MOs MBase64 MSerialize MVoucher MCrypto MRequest MHeap MArray MVoucherHeap MConfig MHandlers MConcurrent MConcurrentReg SBase64 SHeap SArray SConfig SVoucher SRequest SHandlers SConcurrentReg
  PBase64 PHeap PBlocks POwn PAcquire PMasa PRegistrar PRegistrar2 PEnroll PConcurrent PConcurrentReg PConcurrentReg2 PConcurrentReg3 PConcurrentReg4 PLink2.
Open Scope N_scope.

Lemma enroll_answer_fun sc w cert key body a a' : enroll_answer sc w cert key body a -> enroll_answer sc w cert key body a' -> a = a'.
Proof.
  intros [(m & out & D & (c & k & C & K & E) & L & ->)|[-> H]] [(m' & out' & D' & (c' & k' & C' & K' & E') & L' & ->)|[-> H']].
  - congruence.
  - exfalso. apply H'. exists m, out. split; [exact D|]. split; [exists c, k; auto|exact L].
  - exfalso. apply H. exists m', out'. split; [exact D'|]. split; [exists c', k'; auto|exact L'].
  - reflexivity.
Qed.

Section Reg.
Variables (o : ossl) (sc : sign_cert_fn) (c : registrar_conf) (f : registrar_files) (cert key : bytes) (h : heap).
Hypotheses (OS : ossl_sane o) (SC : forall k ct tbs out, sc k ct tbs = Some out -> bytes_ok out) (W : heap_wf h) (PL : plenty h) (RC : registrar_config h c f)
  (Cc : heap_string h (rc_ca_cert c) = Ok cert) (Ck : heap_string h (rc_ca_key c) = Ok key).

Definition reg_good (r : reg_request) (s : Z) (resp : bytes) : Prop :=
  match r with
  | RVoucher w post peer body => registrar_answer o w f post peer body (s, resp)
  | REnroll w _ body => enroll_answer sc w cert key body (s, resp)
  end.
Definition reg_bad (r : reg_request) : Prop :=
  match r with
  | RVoucher w _ peer body => registrar_unsafe o w f peer body
  | REnroll _ _ body => bad_padding (c_string body)
  end.
Lemma reg_fine r : reg_request_ok r -> fine h (reg_good r) (reg_bad r) 26 (reg_steps o sc c r) [].
Proof.
  destruct r as [w post peer body|w peer body]; cbn [reg_request_ok reg_good reg_bad reg_steps].
  - intros (WO & B & VV). apply voucher_fine; auto.
  - intros B. apply enroll_fine; auto. lia.
Qed.
Lemma reg_run r : reg_request_ok r -> reg_bad r /\ (exists k, reg_alone o sc c h r = UB k) \/ ~ reg_bad r /\ exists s resp h', reg_alone o sc c h r = Ok (s, resp, h') /\ reg_good r s resp.
Proof.
  destruct r as [w post peer body|w peer body]; cbn [reg_request_ok reg_good reg_bad reg_alone].
  - intros (WO & B & VV). destruct (registrar_run o w c f post h peer body OS WO W PL RC B VV) as [H|[N (s & r & h' & E & _ & _ & A)]]; [left; exact H|]. right. split; [exact N|]. exists s, r, h'. auto.
  - intros B. destruct (enroll_run sc w c cert key h peer body SC W PL Cc Ck B) as [H|[N (s & r & h' & E & _ & _ & A)]]; [left; exact H|]. right. split; [exact N|]. exists s, r, h'. auto.
Qed.
Lemma reg_same r s resp : reg_request_ok r -> ~ reg_bad r -> reg_good r s resp -> exists h', reg_alone o sc c h r = Ok (s, resp, h').
Proof.
  intros R N G. destruct (reg_run r R) as [[B _]|(_ & s' & r' & h' & E & G')]; [contradiction|]. exists h'. rewrite E. assert (Q : (s, resp) = (s', r')); [|injection Q as -> ->; reflexivity].
  destruct r as [w post peer body|w peer body]; cbn [reg_good] in *.
  - eapply answer_alike; [exact OS| |exact G|exact G']. intros cms _ _. right. right. reflexivity.
  - eapply enroll_answer_fun; eassumption.
Qed.

Lemma reg_together reqs is : Forall reg_request_ok reqs ->
  (exists i r, In i is /\ nth_error reqs i = Some r /\ (exists k, reg_alone o sc c h r = UB k) /\ exists k, schedule is (h, 0, map (reg_steps o sc c) reqs) = UB k) \/
  exists h' ps, schedule is (h, 0, map (reg_steps o sc c) reqs) = Ok (h', 0, ps) /\ kept (hp_next h) h h' /\ List.length ps = List.length reqs /\
    (forall i r s resp, nth_error reqs i = Some r -> nth_error ps i = Some (Ret s resp) -> exists h1, reg_alone o sc c h r = Ok (s, resp, h1)) /\
    (forall i, (i < List.length reqs)%nat -> (26 <= turns is i)%nat -> exists p, nth_error ps i = Some p /\ answered p) /\
    (Forall answered ps -> no_leak (hp_next h) h').
Proof.
  intros RO. rewrite Forall_forall in RO.
  set (dflt := REnroll (mk_world (fun _ => None) (fun _ => None) None) None []).
  set (g := fun i => reg_good (nth i reqs dflt)). set (b := fun i => reg_bad (nth i reqs dflt)).
  destruct (interleave h g b (map (reg_steps o sc c) reqs) 26 is 0 W) as [(i & Hi & Li & B & U)|(h' & ps & E & K & Ln & A & T & Lk)].
  - intros i p Hp. rewrite nth_error_map in Hp. destruct (nth_error reqs i) as [r|] eqn:Er; [|discriminate]. injection Hp as <-. unfold g, b. rewrite (nth_error_nth _ _ dflt Er). apply reg_fine. apply RO. eapply nth_error_In. exact Er.
  - left. rewrite map_length in Li. destruct (nth_error reqs i) as [r|] eqn:Er; [|apply nth_error_None in Er; lia]. exists i, r. split; [exact Hi|]. split; [exact Er|]. split; [|exact U].
    unfold b in B. rewrite (nth_error_nth _ _ dflt Er) in B. destruct (reg_run r (RO r (nth_error_In _ _ Er))) as [[_ Q]|[N _]]; [exact Q|contradiction].
  - right. rewrite map_length in Ln. exists h', ps. split; [exact E|]. split; [exact K|]. split; [exact Ln|]. split; [|split; [|exact Lk]].
    + intros i r s resp Er Es. destruct (A i s resp Es) as [N G]. unfold b, g in N, G. rewrite (nth_error_nth _ _ dflt Er) in N, G. apply reg_same; [apply RO; eapply nth_error_In; exact Er|exact N|exact G].
    + intros i Li C. rewrite map_length in T. destruct (T i Li C) as (s & r & Q). exists (Ret s r). split; [exact Q|]. exists s, r. reflexivity.
Qed.
End Reg.

(** *** The steps of one request make up the handler *)
Lemma alone_act f h ld : alone (act f) h ld = match f h with UB k => UB k | Ok (h, p) => alone p h ld end.
Proof. unfold act. cbn [alone]. destruct (f h) as [[h' p]|k]; reflexivity. Qed.
Lemma reg_alone_steps o sc c r h ld : alone (reg_steps o sc c r) h ld = obind (reg_alone o sc c h r) (fun x => let '(s, resp, h) := x in Ok (s, resp, ld, h)).
Proof.
  assert (CL : forall xs h s resp, alone (clean_steps xs (Ret s resp)) h ld = obind (obind (cleanup h xs) (fun h => Ok (s, resp, h))) (fun x => let '(s, resp, h) := x in Ok (s, resp, ld, h))).
  { intros xs h1 s resp. rewrite alone_clean. destruct (cleanup h1 xs); reflexivity. }
  destruct r as [w post peer body|w peer body]; cbn [reg_steps reg_alone].
  - unfold registrar_steps, registrar_requestvoucher. cbv zeta.
    repeat (first [rewrite CL; reflexivity | reflexivity
    | rewrite alone_act
    | match goal with
      | |- _ = obind (obind ?x _) _ => let E := fresh in destruct x eqn:E; cbn [obind]; [|reflexivity]
      | |- _ = obind (let (_, _) := ?x in _) _ => destruct x
      | |- _ = obind (if ?b then _ else _) _ => destruct b
      | |- _ = obind match ?x with Some _ => _ | None => _ end _ => let E := fresh in destruct x eqn:E
      end]).
  - unfold enroll_steps, registrar_est_simpleenroll. cbv zeta.
    repeat (first [rewrite CL; reflexivity | reflexivity
    | rewrite alone_act
    | match goal with
      | |- _ = obind (obind ?x _) _ => let E := fresh in destruct x eqn:E; cbn [obind]; [|reflexivity]
      | |- _ = obind (let (_, _) := ?x in _) _ => destruct x
      | |- _ = obind (if ?b then _ else _) _ => destruct b
      | |- _ = obind match ?x with Some _ => _ | None => _ end _ => let E := fresh in destruct x eqn:E
      | |- _ = obind match ?x with PBuf _ _ => _ | _ => _ end _ => let E := fresh in destruct x eqn:E
      end]).
Qed.
Lemma act_within n f : (forall h h' p, f h = Ok (h', p) -> within n p) -> within (S n) (act f).
Proof. intros H. constructor. intros h ld h' ld' p E. destruct (f h) as [[h1 p1]|k] eqn:Q; cbn [obind] in E; [|discriminate]. injection E as <- <- <-. eapply H. exact Q. Qed.
Lemma clean_within_le l s r n : (List.length l <= n)%nat -> within n (clean_steps l (Ret s r)).
Proof. intros L. eapply within_more; [apply (clean_within l 0)|lia]. Qed.
Ltac one_stage :=
  match goal with
  | E : obind ?x _ = Ok _ |- _ => let Q := fresh in destruct x eqn:Q; cbn [obind] in E; [|discriminate E]
  | E : (let (_, _) := ?x in _) = Ok _ |- _ => destruct x
  | E : (if ?b then _ else _) = Ok _ |- _ => destruct b
  | E : match ?x with Some _ => _ | None => _ end = Ok _ |- _ => let Q := fresh in destruct x eqn:Q
  | E : match ?x with PBuf _ _ => _ | _ => _ end = Ok _ |- _ => let Q := fresh in destruct x eqn:Q
  | E : UB _ = Ok _ |- _ => discriminate E
  | E : Ok _ = Ok _ |- _ => injection E as <- <-
  end.
Lemma reg_within o sc c r : within 26 (reg_steps o sc c r).
Proof.
  destruct r as [w post peer body|w peer body]; cbn [reg_steps].
  - unfold registrar_steps. cbv zeta.
    repeat (first [apply clean_within_le; cbn [List.length]; lia | apply w_ret | apply act_within; intros ? ? ? E; repeat one_stage | apply w_step; intros ? ? ? ? ? E; repeat stage]).
  - unfold enroll_steps. cbv zeta.
    repeat (first [apply clean_within_le; cbn [List.length]; lia | apply w_ret | apply act_within; intros ? ? ? E; repeat one_stage | apply w_step; intros ? ? ? ? ? E; repeat stage]).
Qed.
Lemma reg_steps_alone o sc c r h k : (26 <= k)%nat ->
  schedule (repeat 0%nat k) (h, 0, [reg_steps o sc c r]) = obind (reg_alone o sc c h r) (fun x => let '(s, resp, h) := x in Ok (h, 0, [Ret s resp])).
Proof.
  intros K. rewrite (schedule_alone _ _ (reg_within o sc c r) k 0%nat h 0 [reg_steps o sc c r] K eq_refl), reg_alone_steps.
  destruct (reg_alone o sc c h r) as [[[s resp] h']|u]; reflexivity.
Qed.
