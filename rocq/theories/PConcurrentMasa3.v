(** Overlapping requests to the MASA. *)
From Verif Require Import Base PBase MOs MBase64 MSerialize MVoucher MCrypto MRequest MHeap MArray MVoucherHeap MConfig MHandlers MConcurrent SBase64 SHeap SArray SConfig SVoucher SRequest SHandlers SConcurrentReg SConcurrentMasa
  PHeap PConfig POwn PMasa PConcurrent PConcurrentReg PConcurrentReg2 PConcurrentMasa PConcurrentMasa2.
Open Scope N_scope.

Lemma choose : forall (Q : nat -> nat -> Prop) n, (forall i, (i < n)%nat -> exists r, Q i r) -> exists g, forall i, (i < n)%nat -> Q i (g i).
Proof.
  intros Q n. induction n as [|n IH]; intros H; [exists (fun _ => O); lia|]. destruct IH as [g G]; [intros i Hi; apply H; lia|]. destruct (H n (Nat.lt_succ_diag_r n)) as [r Hr].
  exists (fun i => if Nat.eqb i n then r else g i). intros i Hi. destruct (Nat.eqb_spec i n) as [->|Ne]; [exact Hr|]. apply G. lia.
Qed.

Lemma masa_overlap : forall o w c f h bodies is, ossl_sane o -> world_ok w -> heap_wf h -> plenty h -> masa_config h c f -> Forall bytes_ok bodies -> masa_usable w f ->
  ((exists i, In i is /\ (i < List.length bodies)%nat /\ masa_crash w f (nth i bodies [])) \/ ~ exclusive o w f bodies is) /\ (exists k, schedule is (h, 0, map (masa_steps o w c) bodies) = UB k) \/
  exists h' ld' ps, schedule is (h, 0, map (masa_steps o w c) bodies) = Ok (h', ld', ps) /\ kept (hp_next h) h h' /\ List.length ps = List.length bodies /\
    (forall i s r, nth_error ps i = Some (Ret s r) -> ~ masa_crash w f (nth i bodies []) /\ masa_answer o w f (nth i bodies []) (s, r)) /\
    (forall i, (i < List.length bodies)%nat -> (30 <= turns is i)%nat -> exists s r, nth_error ps i = Some (Ret s r)) /\
    (Forall answered ps -> exclusive o w f bodies is /\ no_leak (hp_next h) h').
Proof.
  intros o w c f h bodies is OS WO W PL MC BB US. destruct (w_cert w (mf_ldevid f)) as [dl|] eqn:El; [|destruct US as (_ & Q & _); congruence].
  assert (BN : forall i, (i < List.length bodies)%nat -> bytes_ok (nth i bodies [])) by (intros i Hi; rewrite Forall_forall in BB; apply BB, nth_In; exact Hi).
  destruct (choose (fun i R => (R = 12%nat /\ ~ voucher_due o w f (nth i bodies []) \/ R = 13%nat /\ voucher_due o w f (nth i bodies [])) /\ coop h dl (fun s r => masa_answer o w f (nth i bodies []) (s, r)) (masa_crash w f (nth i bodies [])) R 30 0 (masa_steps o w c (nth i bodies [])) []) (List.length bodies)) as [R0 HR0].
  { intros i Hi. apply masa_coop; auto. }
  set (len := List.length bodies) in *. set (R := fun i => if Nat.ltb i len then R0 i else 12%nat).
  assert (HR : forall i, (i < len)%nat -> R i = R0 i) by (intros i Hi; unfold R; destruct (Nat.ltb_spec i len); [reflexivity|lia]).
  assert (RR : forall i, (12 <= R i)%nat) by (intros i; unfold R; destruct (Nat.ltb_spec i len) as [Q|Q]; [destruct (HR0 i Q) as [[[-> _]|[-> _]] _]; lia|lia]).
  assert (HO : forall p j, (j < len)%nat -> (inside R len (turns p) j <-> holding o w f (nth j bodies []) (turns p j))).
  { intros p j Hj. unfold inside, holding. rewrite (HR j Hj). destruct (HR0 j Hj) as [[[-> V]|[-> V]] _]; [split; [intros [_ Q]; left; exact Q|intros [Q|[_ Q]]; [split; [exact Hj|exact Q]|contradiction]]|].
    split; [intros [_ Q]|intros Q; split; [exact Hj|lia]]. destruct (Nat.eq_dec (turns p j) 12) as [Z|Z]; [right; split; [exact Z|exact V]|left; lia]. }
  assert (EX : exclusive o w f bodies is <-> forall p i rest, is = p ++ i :: rest -> (i < len)%nat -> turns p i = 2%nat -> forall j, j <> i -> ~ inside R len (turns p) j).
  { split.
    - intros H p i rest Q Li T j Nj Hj. pose proof (proj1 Hj) as Lj. apply HO in Hj; [|exact Lj]. exact (H p i rest Q Li T j Lj Nj Hj).
    - intros H p i rest Q Li T j Lj Nj Hj. apply (HO p j Lj) in Hj. exact (H p i rest Q Li T j Nj Hj). }
  destruct (shared_interleave h dl (fun i s r => masa_answer o w f (nth i bodies []) (s, r)) (fun i => masa_crash w f (nth i bodies [])) R len RR (map (masa_steps o w c) bodies) 30 is 0 W (map_length _ _)) as [[U1 U2]|(h' & ld' & ps & E & K & Ln & A & D & N)].
  - intros i p Hp. assert (Li : (i < len)%nat) by (unfold len; rewrite <- (map_length (masa_steps o w c)); apply nth_error_Some; congruence). rewrite (HR i Li).
    assert (p = masa_steps o w c (nth i bodies [])) as ->; [|apply HR0; exact Li]. rewrite nth_error_map in Hp. destruct (nth_error bodies i) as [b|] eqn:Eb; [|discriminate]. injection Hp as <-. f_equal. symmetry. apply nth_error_nth. exact Eb.
  - left. split; [|exact U2]. destruct U1 as [U1|U1]; [left; exact U1|right; rewrite EX; exact U1].
  - right. exists h', ld', ps. split; [exact E|]. split; [exact K|]. split; [exact Ln|]. split; [exact A|]. split; [exact D|]. intros Q. rewrite EX. apply N. exact Q.
Qed.

(** Requests that all run to their end. *)
Lemma overlap_exact : forall o w c f h bodies is, ossl_sane o -> world_ok w -> heap_wf h -> plenty h -> masa_config h c f -> Forall bytes_ok bodies -> masa_usable w f ->
  (forall i, (i < List.length bodies)%nat -> (30 <= turns is i)%nat) ->
  ((exists k, schedule is (h, 0, map (masa_steps o w c) bodies) = UB k) <-> Exists (masa_crash w f) bodies \/ ~ exclusive o w f bodies is).
Proof.
  intros o w c f h bodies is OS WO W PL MC BB US T. destruct (masa_overlap o w c f h bodies is OS WO W PL MC BB US) as [[U1 U2]|(h' & ld' & ps & E & K & Ln & A & D & N)].
  - split; [intros _|intros _; exact U2]. destruct U1 as [(i & _ & Li & B)|U1]; [left|right; exact U1]. apply Exists_exists. exists (nth i bodies []). split; [apply nth_In; exact Li|exact B].
  - split; [intros [k Q]; congruence|]. intros Q. exfalso. assert (AL : Forall answered ps).
    { apply Forall_forall. intros p Hp. apply In_nth_error in Hp. destruct Hp as [i Hi]. assert (Li : (i < List.length bodies)%nat) by (rewrite <- Ln; apply nth_error_Some; congruence). destruct (D i Li (T i Li)) as (s & r & Q2). exists s, r. congruence. }
    destruct (N AL) as [X _]. destruct Q as [Q|Q]; [|exact (Q X)]. apply Exists_exists in Q. destruct Q as (b & Hb & Cb). apply (In_nth _ _ []) in Hb. destruct Hb as (i & Li & <-).
    destruct (D i Li (T i Li)) as (s & r & Q2). destruct (A i s r Q2) as [Q3 _]. contradiction.
Qed.
(** Requests that keep out of each other's way, however far they have come. *)
Lemma overlap_answers : forall o w c f h bodies is, ossl_sane o -> world_ok w -> heap_wf h -> plenty h -> masa_config h c f -> Forall bytes_ok bodies -> masa_usable w f ->
  exclusive o w f bodies is -> (forall i, In i is -> (i < List.length bodies)%nat -> ~ masa_crash w f (nth i bodies [])) ->
  exists h' ld' ps, schedule is (h, 0, map (masa_steps o w c) bodies) = Ok (h', ld', ps) /\ kept (hp_next h) h h' /\ List.length ps = List.length bodies /\
    (forall i s r, nth_error ps i = Some (Ret s r) -> masa_answer o w f (nth i bodies []) (s, r)) /\
    (forall i, (i < List.length bodies)%nat -> (30 <= turns is i)%nat -> exists s r, nth_error ps i = Some (Ret s r)) /\
    (Forall answered ps -> no_leak (hp_next h) h').
Proof.
  intros o w c f h bodies is OS WO W PL MC BB US X NC. destruct (masa_overlap o w c f h bodies is OS WO W PL MC BB US) as [[U1 U2]|(h' & ld' & ps & E & K & Ln & A & D & N)].
  - exfalso. destruct U1 as [(i & Ii & Li & B)|U1]; [exact (NC i Ii Li B)|exact (U1 X)].
  - exists h', ld', ps. split; [exact E|]. split; [exact K|]. split; [exact Ln|]. split; [intros i s r Q; apply (A i s r Q)|]. split; [exact D|]. intros Q. apply N. exact Q.
Qed.

(** A sufficient test. *)
Fixpoint quiet (n : nat) (before is : list nat) : bool :=
  match is with
  | [] => true
  | i :: r =>
    (negb (Nat.ltb i n) || negb (Nat.eqb (turns before i) 2) || forallb (fun j => Nat.eqb j i || negb (Nat.leb 3 (turns before j) && Nat.leb (turns before j) 12)) (seq 0 n)) && quiet n (before ++ [i]) r
  end.
Lemma quiet_spec : forall n is before, quiet n before is = true ->
  forall p i rest, is = p ++ i :: rest -> (i < n)%nat -> turns (before ++ p) i = 2%nat -> forall j, (j < n)%nat -> j <> i -> ~ (3 <= turns (before ++ p) j <= 12)%nat.
Proof.
  intros n. induction is as [|x is IH]; intros before Q p i rest E Li T j Lj Nj H; [destruct p; discriminate|]. cbn [quiet] in Q. apply andb_true_iff in Q. destruct Q as [Q1 Q2]. destruct p as [|y p]; cbn [app] in E; injection E as <- E.
  - rewrite app_nil_r in *. apply orb_true_iff in Q1. destruct Q1 as [Q1|Q1].
    + apply orb_true_iff in Q1. destruct Q1 as [Q1|Q1]; [destruct (Nat.ltb_spec x n); [discriminate|lia]|]. rewrite T in Q1. discriminate.
    + rewrite forallb_forall in Q1. specialize (Q1 j ltac:(apply in_seq; lia)). destruct (Nat.eqb_spec j x); [congruence|]. destruct (Nat.leb_spec 3 (turns before j)), (Nat.leb_spec (turns before j) 12); try discriminate; lia.
  - specialize (IH (before ++ [x]) Q2 p i rest E Li). rewrite <- app_assoc in IH. exact (IH T j Lj Nj H).
Qed.
Lemma quiet_exclusive o w f bodies is : quiet (List.length bodies) [] is = true -> exclusive o w f bodies is.
Proof. intros Q p i rest E Li T j Lj Nj H. apply (quiet_spec _ _ _ Q p i rest E Li T j Lj Nj). destruct H as [H|[H _]]; cbn [app]; lia. Qed.
