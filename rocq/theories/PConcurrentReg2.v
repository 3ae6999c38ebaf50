(** Any interleaving of requests that keep to what they hold. *)
From Coq Require Import Permutation.
From Verif Require Import Base PBase MOs MBase64 MSerialize MVoucher MCrypto MRequest MHeap MArray MVoucherHeap MConfig MHandlers MConcurrent SBase64 SHeap SArray SConfig SVoucher SRequest SHandlers MConcurrentReg SConcurrentReg
  PBase64 PHeap PArray PBlocks PConfig PConfigMore PCertFiles POwn PAcquire PAcquire2 PMasa PConcurrent PConcurrentReg.
Open Scope N_scope.

Definition upd {A} (f : nat -> A) (i : nat) (x : A) : nat -> A := fun j => if Nat.eqb j i then x else f j.
Lemma upd_same A (f : nat -> A) i x : upd f i x i = x.
Proof. unfold upd. rewrite Nat.eqb_refl. reflexivity. Qed.
Lemma upd_other A (f : nat -> A) i x j : j <> i -> upd f i x j = f j.
Proof. intros H. unfold upd. apply Nat.eqb_neq in H. rewrite H. reflexivity. Qed.

Section Together.
Variables (h0 : heap) (good : nat -> Z -> bytes -> Prop) (bad : nat -> Prop).
Let base := hp_next h0.

(** Every request holds its own, and there is nothing else. *)
Definition together (h : heap) (ps : list prog) (ns : nat -> nat) (ls : nat -> list (item * list N)) : Prop :=
  ext h0 h /\
  (forall i p, nth_error ps i = Some p -> fine h0 (good i) (bad i) (ns i) p (ls i)) /\
  (forall i, own base h (ls i)) /\
  (forall i j a, i <> j -> In a (iprint (ls i)) -> ~ In a (iprint (ls j))) /\
  (forall a, base <= a -> is_live h a -> exists i, (i < List.length ps)%nat /\ In a (iprint (ls i))).

Lemma together_step h ld ps ns ls i f : together h ps ns ls -> nth_error ps i = Some (Step f) ->
  bad i /\ (exists k, f h ld = UB k) \/
  exists h' p' n' l', f h ld = Ok (h', ld, p') /\ ns i = S n' /\ together h' (replace_nth i p' ps) (upd ns i n') (upd ls i l').
Proof.
  intros (E & Fi & Ow & D & L) H. pose proof (Fi i _ H) as G. cbn [fine] in G. destruct (ns i) as [|n]; [contradiction|].
  destruct (G h ld E (Ow i)) as [U|(h' & p' & l' & Q & (W' & Hn & Ho & K & O' & F' & L') & G')]; [left; exact U|]. right. exists h', p', n, l'. split; [exact Q|]. split; [reflexivity|].
  pose proof E as (W & N0 & K0 & Ho0). assert (Li : (i < List.length ps)%nat) by (apply nth_error_Some; congruence).
  assert (OUT : forall j a, j <> i -> In a (iprint (ls j)) -> hp_cell h' a = hp_cell h a).
  { intros j a Hj Ha. apply K; [apply (Ow j); exact Ha|]. apply (D j i a Hj Ha). }
  split; [|split; [|split; [|split]]].
  - split; [exact W'|]. split; [lia|]. split; [|congruence]. intros a Ha. rewrite K; [apply K0; exact Ha|lia|]. intros Q2. apply (Ow i) in Q2. unfold base in Q2. lia.
  - intros j p Hj. destruct (Nat.eq_dec j i) as [->|Ne].
    + rewrite nth_replace in Hj by exact Li. injection Hj as <-. rewrite !upd_same. exact G'.
    + rewrite nth_replace_other in Hj by congruence. rewrite !upd_other by exact Ne. apply Fi. exact Hj.
  - intros j. destruct (Nat.eq_dec j i) as [->|Ne]; [rewrite upd_same; exact O'|]. rewrite upd_other by exact Ne. eapply own_frame; [exact W|exact W'|exact Hn|apply Ow|]. intros a Ha. eapply OUT; eassumption.
  - assert (DJ : forall j a, j <> i -> In a (iprint (ls j)) -> ~ In a (iprint l')).
    { intros j a Hj Ha Q2. apply F' in Q2. destruct Q2 as [Q2|Q2]; [exact (D j i a Hj Ha Q2)|]. apply (Ow j) in Ha. lia. }
    intros j k a Hjk Ha Hb. destruct (Nat.eq_dec j i) as [->|Nj]; [rewrite upd_same in Ha; rewrite upd_other in Hb by congruence; exact (DJ k a (not_eq_sym Hjk) Hb Ha)|]. rewrite upd_other in Ha by exact Nj.
    destruct (Nat.eq_dec k i) as [->|Nk]; [rewrite upd_same in Hb; exact (DJ j a Nj Ha Hb)|]. rewrite upd_other in Hb by exact Nk. exact (D j k a Hjk Ha Hb).
  - rewrite replace_length. intros a Ha La. destruct (N.lt_ge_cases a (hp_next h)) as [Q1|Q1].
    2:{ exists i. split; [exact Li|]. rewrite upd_same. apply L'; [exact La|right; exact Q1]. }
    destruct (in_dec N.eq_dec a (iprint (ls i))) as [I|I]; [exists i; split; [exact Li|]; rewrite upd_same; apply L'; [exact La|left; exact I]|].
    assert (La' : is_live h a) by (destruct La as [b Hb]; exists b; rewrite <- K by assumption; exact Hb). destruct (L a Ha La') as (j & Lj & Ij). exists j. split; [exact Lj|].
    rewrite upd_other; [exact Ij|]. intros ->. contradiction.
Qed.

Lemma together_run : forall is h ld ps ns ls, together h ps ns ls ->
  (exists i, In i is /\ (i < List.length ps)%nat /\ bad i /\ exists k, schedule is (h, ld, ps) = UB k) \/
  exists h' ps' ns' ls', schedule is (h, ld, ps) = Ok (h', ld, ps') /\ together h' ps' ns' ls' /\ List.length ps' = List.length ps /\
    forall i p, nth_error ps i = Some p -> (ns i <= count_occ Nat.eq_dec is i)%nat \/ answered p -> exists p', nth_error ps' i = Some p' /\ answered p'.
Proof.
  induction is as [|i is IH]; intros h ld ps ns ls T; cbn [schedule].
  - right. exists h, ps, ns, ls. split; [reflexivity|]. split; [exact T|]. split; [reflexivity|]. intros i p Hp [Q|Q]; [|exists p; auto]. exists p. split; [exact Hp|]. destruct T as (_ & Fi & _). specialize (Fi i p Hp). cbn [count_occ] in Q.
    destruct p as [s r|f]; [exists s, r; reflexivity|]. cbn [fine] in Fi. destruct (ns i); [contradiction|lia].
  - cbn [step]. assert (STAY : (forall f, nth_error ps i <> Some (Step f)) ->
      (exists i0, In i0 (i :: is) /\ (i0 < List.length ps)%nat /\ bad i0 /\ exists k, obind (Ok (h, ld, ps)) (schedule is) = UB k) \/
      exists h' ps' ns' ls', obind (Ok (h, ld, ps)) (schedule is) = Ok (h', ld, ps') /\ together h' ps' ns' ls' /\ List.length ps' = List.length ps /\
        forall j p, nth_error ps j = Some p -> (ns j <= count_occ Nat.eq_dec (i :: is) j)%nat \/ answered p -> exists p', nth_error ps' j = Some p' /\ answered p').
    { intros NS. cbn [obind]. destruct (IH h ld ps ns ls T) as [(j & I & U)|(h' & ps' & ns' & ls' & E & T' & Ln & A)].
      - left. exists j. split; [right; exact I|exact U].
      - right. exists h', ps', ns', ls'. split; [exact E|]. split; [exact T'|]. split; [exact Ln|]. intros j p Hp Q. apply (A j p Hp). destruct Q as [Q|Q]; [|right; exact Q]. cbn [count_occ] in Q. destruct (Nat.eq_dec i j) as [->|Ne]; [|left; exact Q].
        right. destruct p as [s r|f]; [exists s, r; reflexivity|]. destruct (NS f Hp). }
    destruct (nth_error ps i) as [[s r|f]|] eqn:H; [apply STAY; intros f Q; discriminate| |apply STAY; intros f Q; discriminate]. clear STAY.
    assert (Li : (i < List.length ps)%nat) by (apply nth_error_Some; congruence).
    destruct (together_step h ld ps ns ls i f T H) as [[B [k U]]|(h1 & p1 & n1 & l1 & E1 & En & T1)].
    { left. exists i. split; [left; reflexivity|]. split; [exact Li|]. split; [exact B|]. exists k. rewrite U. reflexivity. }
    rewrite E1. cbn [obind]. destruct (IH h1 ld _ _ _ T1) as [(j & I & Lj & B & U)|(h' & ps' & ns' & ls' & E & T' & Ln & A)].
    + rewrite replace_length in Lj. left. exists j. split; [right; exact I|]. auto.
    + rewrite replace_length in Ln. right. exists h', ps', ns', ls'. split; [exact E|]. split; [exact T'|]. split; [exact Ln|]. intros j p Hp Q. destruct (Nat.eq_dec j i) as [->|Ne].
      * apply (A i p1); [apply nth_replace; exact Li|]. left. rewrite upd_same. destruct Q as [Q|(s & r & Q)]; [|congruence]. cbn [count_occ] in Q. destruct (Nat.eq_dec i i) as [_|Z]; [|congruence]. lia.
      * apply (A j p); [rewrite nth_replace_other by congruence; exact Hp|]. rewrite upd_other by exact Ne. destruct Q as [Q|Q]; [|right; exact Q]. left. cbn [count_occ] in Q. destruct (Nat.eq_dec i j) as [Z|_]; [congruence|exact Q].
Qed.

Lemma together_start ps N0 : heap_wf h0 -> (forall i p, nth_error ps i = Some p -> fine h0 (good i) (bad i) N0 p []) -> together h0 ps (fun _ => N0) (fun _ => []).
Proof.
  intros W F. split; [apply ext_refl; exact W|]. split; [exact F|]. split; [|split].
  - intros i. split; [constructor|]. split; [constructor|]. intros a [].
  - intros i j a _ [].
  - intros a Ha [b Hb]. destruct W as (_ & _ & W). rewrite W in Hb by exact Ha. discriminate.
Qed.

(** Requests interleaved in any way. *)
Lemma interleave ps N0 is ld : heap_wf h0 -> (forall i p, nth_error ps i = Some p -> fine h0 (good i) (bad i) N0 p []) ->
  (exists i, In i is /\ (i < List.length ps)%nat /\ bad i /\ exists k, schedule is (h0, ld, ps) = UB k) \/
  exists h' ps', schedule is (h0, ld, ps) = Ok (h', ld, ps') /\ kept (hp_next h0) h0 h' /\ List.length ps' = List.length ps /\
    (forall i s r, nth_error ps' i = Some (Ret s r) -> ~ bad i /\ good i s r) /\
    (forall i, (i < List.length ps)%nat -> (N0 <= count_occ Nat.eq_dec is i)%nat -> exists s r, nth_error ps' i = Some (Ret s r)) /\
    (Forall answered ps' -> no_leak (hp_next h0) h').
Proof.
  intros W F. destruct (together_run is h0 ld ps _ _ (together_start ps N0 W F)) as [U|(h' & ps' & ns' & ls' & E & (T1 & T2 & T3 & T4 & T5) & Ln & A)]; [left; exact U|]. right. exists h', ps'.
  split; [exact E|]. split; [apply T1|]. split; [exact Ln|]. split; [|split].
  - intros i s r H. specialize (T2 i _ H). destruct (ns' i); destruct T2 as (_ & B & G); auto.
  - intros i Li C. destruct (nth_error ps i) as [p|] eqn:Hp; [|apply nth_error_None in Hp; lia]. destruct (A i p Hp (or_introl C)) as (p' & Hp' & s & r & ->). exists s, r. exact Hp'.
  - intros Al a Ha La. destruct (T5 a Ha La) as (i & Li & Ii). destruct (nth_error ps' i) as [p|] eqn:Hp; [|apply nth_error_None in Hp; lia]. rewrite Forall_forall in Al. destruct (Al p (nth_error_In _ _ Hp)) as (s & r & ->).
    specialize (T2 i _ Hp). assert (Z : iprint (ls' i) = []) by (destruct (ns' i); apply T2). rewrite Z in Ii. destruct Ii.
Qed.
End Together.
