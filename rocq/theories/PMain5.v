(** Proofs about the program: the whole. *)
From Coq Require Import Permutation.
From Verif Require Import Base PBase MOs MBase64 MSerialize MVoucher MCrypto MRequest MHeap MArray MVoucherHeap MConfig MHandlers MLog MSignCert MMain SBase64 SHeap SArray SConfig SVoucher SRequest SHandlers SPledge SLog SSignCert SMain
  PBase64 PHeap PArray PBlocks PConfig PConfigMore PCertFiles POwn PAcquire PAcquire2 PRegistrar PVoucher PSignCert3 PMain PMain2 PMain3 PMain4.
Open Scope N_scope.

Lemma serial_run : forall e o, exists r, main_serial e o = Ok r /\ delivers (serial_gives e o) (fun s r => r = mk_ending 0 s []) r.
Proof.
  intros e o. unfold main_serial, serial_gives. destruct (op_in o) as [|c0 inp] eqn:EI.
  { eexists. split; [reflexivity|]. right. split; [reflexivity|]. intros x r' (Q & _). congruence. }
  rewrite <- EI in *. assert (IN : op_in o <> []) by congruence. destruct (w_cert (e_world e) (op_in o)) as [d|] eqn:EW.
  2:{ eexists. split; [reflexivity|]. right. split; [reflexivity|]. intros x r' (_ & d & v & Q & _). congruence. }
  destruct (e_view e d) as [v|] eqn:EV.
  2:{ eexists. split; [reflexivity|]. right. split; [reflexivity|]. intros x r' (_ & d' & v & Q & Q2 & _). congruence. }
  destruct (meta_cases v) as [(s & i & sub & CS & E1 & E2)|(NS & D)].
  - rewrite E1. cbn [obind]. rewrite E2. eexists. split; [reflexivity|]. left. exists s. split; [|reflexivity]. split; [exact IN|]. exists d, v. auto.
  - assert (X : exists r, obind (crypto_getcert_meta (Some v)) (fun m => match m with Some (_, subject) => match crypto_getcert_serial subject with Some s => Ok (mk_ending 0 s []) | None => Ok (mk_ending 1 [] []) end | None => Ok (mk_ending 1 [] []) end) = Ok r /\ en_status r = 1%Z).
    { destruct D as [E|(i & sub & E & E2)]; rewrite E; cbn [obind]; [|rewrite E2]; eexists; split; reflexivity. }
    destruct X as (r & E & ER). exists r. split; [exact E|]. right. split; [exact ER|]. intros x r' (_ & d' & v' & Q1 & Q2 & Q3). assert (d' = d) as -> by congruence. assert (v' = v) as -> by congruence. destruct (NS _ Q3).
Qed.

Lemma local_ok : forall h b, heap_wf h -> plenty h -> exists h', local h b = (hp_next h, h') /\ POwn.ext h h' /\ hp_cell h' (hp_next h) = Live b /\ hp_next h <> 0 /\ plenty h'.
Proof.
  intros h b W PL. destruct (local_step h b W) as (h' & E & X & C & _). exists h'. split; [exact E|]. split; [exact X|]. split; [exact C|]. split; [destruct W; lia|exact (ext_plenty _ _ X PL)].
Qed.
Lemma leave_zero : forall h cfg r, heap_wf h -> zero_cfg h cfg -> exists h', leave cfg (r, h) = Ok (r, h').
Proof. intros h cfg r W Z. destruct (free_zero_config h cfg W Z) as (h' & E & _). exists h'. unfold leave. rewrite E. reflexivity. Qed.

Lemma start_ok : forall z, starts z (main_start z).
Proof. intros z. unfold starts, main_start. destruct (Z.ltb_spec z 0); [right|left]; auto. Qed.

Lemma command_ends : forall e o c m a h cfg, outside_ok e -> ini_ok m -> cstr_ok (op_in o) -> configured m a h cfg ->
  match c with CPledgeRequest | CSignCert | CRegistrar => a = op_address o | _ => True end ->
  ends (crashes e m o c) (answers e m o c) h (run_command e o c h cfg).
Proof.
  intros e o c m a h cfg OK IK CI CO HA. pose proof CO as (W & _). unfold run_command. fold (port_of e o). destruct c; cbn [crashes answers]; try (subst a).
  - eapply epvr_run; eassumption.
  - apply preq_run; assumption.
  - eapply vmasa_run; eassumption.
  - apply sign_main; assumption.
  - destruct (serial_run e o) as (r & E & D). rewrite E. cbn [obind]. right. split; [tauto|]. exists r, h. split; [reflexivity|]. split; [apply POwn.ext_refl; exact W|exact D].
  - rewrite (address_ok _ _ _ _ CO). cbn [obind]. right. split; [tauto|]. eexists _, h. split; [reflexivity|]. split; [apply POwn.ext_refl; exact W|apply start_ok].
  - right. split; [tauto|]. eexists _, h. split; [reflexivity|]. split; [apply POwn.ext_refl; exact W|apply start_ok].
Qed.

Lemma config_plenty : forall base cfg h h', PConfig.ext base cfg h h' -> plenty h -> plenty h'.
Proof. intros base cfg h h' (Q & _) PL x. rewrite Q. apply PL. Qed.
(** With a configuration file that can be read. *)
Lemma main_command : forall e name args o c m h, outside_ok e -> heap_wf h -> plenty h -> Forall cstr_ok args -> asks_for args o c -> c <> CGetSerial -> e_ini e (op_config o) = Some m ->
  (crashes e m o c /\ exists k, main e name args h = UB k) \/ (~ crashes e m o c /\ exists r h', main e name args h = Ok (r, h') /\ answers e m o c r).
Proof.
  intros e name args o c m h OK W PL TA AF NC EI. destruct (asks_texts _ _ _ TA AF) as (CA & CI & _). apply options_exact in AF. unfold main. rewrite AF.
  destruct (local_ok h (Struct (repeat (P 0) cfg_fields)) W PL) as (h1 & E1 & X1 & C1 & P0 & PL1). rewrite E1. set (cfg := hp_next h) in *. pose proof (proj1 X1) as W1.
  assert (IK : ini_ok m) by (apply (proj1 OK _ _ EI)). assert (Z : zero_cfg h1 cfg) by exact C1.
  destruct (loaded_cst m h1 cfg W1 PL1 IK Z) as (h2 & mm & foot & E2 & X2 & CS & L1 & L2 & L3).
  assert (PL2 : plenty h2) by (exact (config_plenty _ _ _ _ X2 PL1)).
  assert (GO : forall a, cstr_ok a -> match c with CPledgeRequest | CSignCert | CRegistrar => a = op_address o | _ => True end ->
    (crashes e m o c /\ exists k, obind (override_address h2 cfg a) (fun x => let (ok, h) := x : bool * heap in if negb ok then leave cfg (mk_ending 1 [] [], h) else obind (run_command e o c h cfg) (leave cfg)) = UB k) \/
    (~ crashes e m o c /\ exists r h', obind (override_address h2 cfg a) (fun x => let (ok, h) := x : bool * heap in if negb ok then leave cfg (mk_ending 1 [] [], h) else obind (run_command e o c h cfg) (leave cfg)) = Ok (r, h') /\ answers e m o c r)).
  { intros a Ha HA. destruct (override_ok m a h2 cfg _ _ _ CS PL2 Ha L1 L2 L3) as (h3 & E3 & CO). rewrite E3. cbn [obind negb].
    destruct (command_ends e o c m a h3 cfg OK IK CI CO HA) as [[U [k E]]|[NU (r & h4 & E & X & R)]]; rewrite E; cbn [obind].
    - left. split; [exact U|]. exists k. reflexivity.
    - right. split; [exact NU|]. destruct (leave_ok m a h3 cfg h4 r CO X) as (h5 & E5). rewrite E5. exists r, h5. auto. }
  destruct c; try congruence; rewrite EI, E2; cbn [obind]; change ((0 <? 0)%Z) with false; cbv iota.
  - exact (GO [] (Forall_nil _) Logic.I).
  - exact (GO (op_address o) CA eq_refl).
  - exact (GO [] (Forall_nil _) Logic.I).
  - exact (GO (op_address o) CA eq_refl).
  - exact (GO (op_address o) CA eq_refl).
  - exact (GO [] (Forall_nil _) Logic.I).
Qed.
(** Without one. *)
Lemma main_unread : forall e name args o c h, heap_wf h -> plenty h -> asks_for args o c -> c <> CGetSerial -> e_ini e (op_config o) = None -> exists h', main e name args h = Ok (mk_ending 1 [] [], h').
Proof.
  intros e name args o c h W PL AF NC EI. apply options_exact in AF. unfold main. rewrite AF. destruct (local_ok h (Struct (repeat (P 0) cfg_fields)) W PL) as (h1 & E1 & X1 & C1 & P0 & PL1). rewrite E1. set (cfg := hp_next h) in *. pose proof (proj1 X1) as W1.
  destruct (leave_zero h1 cfg (mk_ending 1 [] []) W1 C1) as (h2 & E2). exists h2. destruct c; try congruence; rewrite EI; cbn [obind]; change ((-1 <? 0)%Z) with true; cbv iota; exact E2.
Qed.
(** The serial number. *)
Lemma main_serial_run : forall e name args o h, heap_wf h -> plenty h -> asks_for args o CGetSerial -> exists r h', main e name args h = Ok (r, h') /\ delivers (serial_gives e o) (fun s r => r = mk_ending 0 s []) r.
Proof.
  intros e name args o h W PL AF. apply options_exact in AF. unfold main. rewrite AF. destruct (local_ok h (Struct (repeat (P 0) cfg_fields)) W PL) as (h1 & E1 & X1 & C1 & P0 & PL1). rewrite E1. set (cfg := hp_next h) in *. pose proof (proj1 X1) as W1. cbn [obind].
  change ((0 <? 0)%Z) with false. cbv iota. cbn [obind negb]. unfold run_command. destruct (serial_run e o) as (r & E & D). rewrite E. cbn [obind]. destruct (leave_zero h1 cfg r W1 C1) as (h2 & E2). rewrite E2. exists r, h2. auto.
Qed.
Lemma strlen_open : forall d, ~ In 0 d -> strlen d = UB OOBRead.
Proof.
  induction d as [|c d IH]; intros H; [reflexivity|]. cbn [strlen]. destruct (N.eqb_spec c 0) as [->|_]; [destruct H; left; reflexivity|]. rewrite IH; [reflexivity|]. intros Q. apply H. right. exact Q.
Qed.
(** Without a command. *)
Lemma main_stops : forall e name args l h, stops args l -> ~ In 0 name -> main e name args h = match l with LVersion => Ok (mk_ending 0 [] [], h) | LBadOption => Ok (mk_ending 1 [] [], h) | _ => UB OOBRead end.
Proof.
  intros e name args l h S N0. apply options_end in S. unfold main. rewrite S. assert (Q : strlen name = UB OOBRead) by exact (strlen_open name N0).
  destruct l; cbn [leave_early]; unfold show_help; rewrite ?Q; reflexivity.
Qed.
