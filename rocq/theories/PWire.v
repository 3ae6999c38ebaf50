(** Streams do what their bytes say, however the bytes are split. *)
From Coq Require Import ZifyBool ZifyNat ZifyN Sorted.
From Verif Require Import Base PBase MSerialize MHttp SHttp PHttp MTls MWire SWire.
Open Scope N_scope.

(** ** Reading *)

Definition holds (d : bytes) (c : bool) (s : stream) : Prop := st_data s = d /\ st_closed s = c.
Lemma holds_self s : holds (st_data s) (st_closed s) s.
Proof. split; reflexivity. Qed.

Lemma read_one s b d c : holds (b :: d) c s -> exists s', read 1 s = (GBytes [b], s') /\ holds d c s'.
Proof.
  intros [D C]. unfold read. rewrite D. cbv zeta.
  replace (N.to_nat (N.max 1 (N.min (st_pick s (st_reads s)) (N.min 1 (blen (b :: d)))))) with 1%nat by (unfold blen; cbn [List.length]; lia).
  cbn [firstn skipn]. eexists. split; [reflexivity|]. split; [reflexivity|exact C].
Qed.
Lemma read_none n s c : holds [] c s -> read n s = (if c then GEnd else GError, s).
Proof. intros [D C]. unfold read. rewrite D, C. reflexivity. Qed.
Lemma read_some n s b d c : holds (b :: d) c s -> 1 <= n ->
  exists k s', (1 <= k <= N.to_nat n)%nat /\ (k <= S (List.length d))%nat /\ read n s = (GBytes (firstn k (b :: d)), s') /\ holds (skipn k (b :: d)) c s'.
Proof.
  intros [D C] H. unfold read. rewrite D. cbv zeta.
  remember (N.to_nat (N.max 1 (N.min (st_pick s (st_reads s)) (N.min n (blen (b :: d)))))) as k.
  exists k. eexists. split; [unfold blen in Heqk; cbn [List.length] in Heqk; lia|]. split; [unfold blen in Heqk; cbn [List.length] in Heqk; lia|].
  split; [reflexivity|]. split; [reflexivity|exact C].
Qed.

(** The bytes up to and with the first line feed. *)
Fixpoint cut_line (d : bytes) : option (bytes * bytes) :=
  match d with
  | [] => None
  | c :: r => if c =? 10 then Some ([10], r) else match cut_line r with Some (l, r) => Some (c :: l, r) | None => None end
  end.
Lemma cut_line_app : forall d l r, cut_line d = Some (l, r) -> d = l ++ r /\ (List.length r < List.length d)%nat.
Proof.
  induction d as [|c d IH]; cbn [cut_line]; intros l r H; [discriminate|].
  destruct (N.eqb_spec c 10) as [->|N]; [injection H as <- <-; split; [reflexivity|cbn; lia]|].
  destruct (cut_line d) as [[l0 r0]|] eqn:E; [|discriminate]. injection H as <- <-. destruct (IH l0 r0 eq_refl) as [-> L].
  split; [reflexivity|]. cbn [List.length]. lia.
Qed.
Lemma cut_line_first : forall l r, Forall (fun c => c <> 10) l -> cut_line (l ++ 10 :: r) = Some (l ++ [10], r).
Proof.
  induction l as [|c l IH]; intros r F; cbn [app cut_line]; [reflexivity|]. apply Forall_cons_iff in F as [A F].
  destruct (N.eqb_spec c 10) as [->|_]; [contradiction|]. rewrite IH by exact F. reflexivity.
Qed.
Lemma cut_line_none d : cut_line d = None <-> Forall (fun c => c <> 10) d.
Proof.
  induction d as [|c d IH]; cbn [cut_line]; [split; [constructor|reflexivity]|].
  destruct (N.eqb_spec c 10) as [->|N].
  - split; [discriminate|]. intro F. inversion F. contradiction.
  - destruct (cut_line d) as [[l r]|].
    + split; [discriminate|]. intro F. apply Forall_cons_iff in F as [_ F]. apply IH in F. discriminate.
    + split; [intros _; constructor; [exact N|apply IH; reflexivity]|reflexivity].
Qed.
Lemma cut_line_ends : forall d l r, cut_line d = Some (l, r) -> exists a, l = a ++ [10] /\ Forall (fun c => c <> 10) a.
Proof.
  induction d as [|c d IH]; cbn [cut_line]; intros l r H; [discriminate|].
  destruct (N.eqb_spec c 10) as [->|N]; [injection H as <- <-; exists []; split; [reflexivity|constructor]|].
  destruct (cut_line d) as [[l0 r0]|] eqn:E; [|discriminate]. injection H as <- <-. destruct (IH l0 r0 eq_refl) as (a & -> & F).
  exists (c :: a). split; [reflexivity|constructor; assumption].
Qed.

Lemma getline_loop_spec : forall d fuel acc s c, holds d c s -> (List.length d < fuel)%nat ->
  match cut_line d with
  | Some (l, r) => exists s', getline_loop fuel acc s = (Some (rev acc ++ l), s') /\ holds r c s'
  | None => exists s', getline_loop fuel acc s = (if c && negb (beqb (rev acc ++ d) []) then Some (rev acc ++ d) else None, s') /\ holds [] c s'
  end.
Proof.
  induction d as [|b d IH]; intros fuel acc s c H L; (destruct fuel as [|fuel]; [cbn in L; lia|]); cbn [getline_loop cut_line].
  - rewrite (read_none 1 s c H). destruct c; [|exists s; split; [reflexivity|exact H]].
    exists s. split; [|exact H]. destruct acc as [|x acc]; [reflexivity|]. rewrite app_nil_r. cbn [rev].
    destruct (rev acc ++ [x]) eqn:E; [|reflexivity]. destruct (rev acc); discriminate E.
  - destruct (read_one s b d c H) as (s1 & R & H1). rewrite R. cbn [beqb]. rewrite Bool.andb_true_r.
    destruct (N.eqb_spec b 10) as [->|N].
    + exists s1. split; [reflexivity|exact H1].
    + cbn [List.length] in L. pose proof (IH fuel ([b] ++ acc) s1 c H1 ltac:(lia)) as G.
      cbn [app rev] in G. rewrite <- app_assoc in G. cbn [app] in G. cbn [app]. destruct (cut_line d) as [[l r]|].
      * destruct G as (s2 & G1 & G2). exists s2. split; [rewrite G1, <- app_assoc; reflexivity|exact G2].
      * exact G.
Qed.
Lemma getline_spec s d c : holds d c s ->
  match cut_line d with
  | Some (l, r) => exists s', getline s = (Some l, s') /\ holds r c s'
  | None => exists s', getline s = (if c && negb (beqb d []) then Some d else None, s') /\ holds [] c s'
  end.
Proof.
  intro H. pose proof (getline_loop_spec d (S (List.length (st_data s))) [] s c H) as G. destruct H as [D C].
  cbn [rev app] in G. unfold getline. apply G. rewrite D. lia.
Qed.
Lemma getline_line s l r c : holds (l ++ 10 :: r) c s -> Forall (fun x => x <> 10) l -> exists s', getline s = (Some (l ++ [10]), s') /\ holds r c s'.
Proof. intros H F. pose proof (getline_spec s _ c H) as G. rewrite (cut_line_first l r F) in G. exact G. Qed.

Lemma with_length_loop_spec : forall fuel left acc s d c, holds d c s -> (List.length d < fuel)%nat ->
  exists s', with_length_loop fuel left acc s = (left <=? blen d, acc ++ firstn (N.to_nat left) d, s') /\ holds (skipn (N.to_nat left) d) c s'.
Proof.
  induction fuel as [|fuel IH]; intros left acc s d c H L; [lia|]. cbn [with_length_loop].
  destruct (N.eqb_spec left 0) as [->|N].
  - exists s. cbn [N.to_nat firstn skipn]. rewrite app_nil_r. split; [|exact H]. f_equal. f_equal. symmetry. apply N.leb_le. lia.
  - destruct d as [|b d].
    + rewrite (read_none (N.min left 4096) s c H). exists s. rewrite firstn_nil, skipn_nil, app_nil_r.
      split; [|exact H]. replace (left <=? blen []) with false by (cbn; lia). destruct c; reflexivity.
    + destruct (read_some (N.min left 4096) s b d c H ltac:(lia)) as (k & s1 & K1 & K2 & R & H1). rewrite R.
      remember (b :: d) as e. assert (Le : List.length e = S (List.length d)) by (subst; reflexivity).
      assert (Lk : List.length (firstn k e) = k) by (rewrite firstn_length; lia).
      assert (Bk : blen (firstn k e) = N.of_nat k) by (unfold blen; rewrite Lk; reflexivity). rewrite Bk.
      destruct (IH (left - N.of_nat k) (acc ++ firstn k e) s1 (skipn k e) c H1 ltac:(rewrite skipn_length; lia)) as (s2 & E & H2).
      exists s2. rewrite E. clear E.
      assert (Q : N.to_nat left = (k + N.to_nat (left - N.of_nat k))%nat) by lia.
      split.
      * assert (A1 : (left - N.of_nat k <=? blen (skipn k e)) = (left <=? blen e)).
        { unfold blen. rewrite skipn_length. destruct (N.leb_spec (left - N.of_nat k) (N.of_nat (List.length e - k))), (N.leb_spec left (N.of_nat (List.length e))); lia. }
        rewrite A1. f_equal. f_equal. rewrite <- app_assoc. f_equal. rewrite Q. remember (N.to_nat (left - N.of_nat k)) as j.
        rewrite <- (firstn_skipn k e) at 3. rewrite firstn_app, Lk. rewrite (firstn_all2 (n := k + j)) by (rewrite Lk; lia).
        f_equal. f_equal. lia.
      * rewrite Q. remember (N.to_nat (left - N.of_nat k)) as j. rewrite <- (firstn_skipn k e). rewrite skipn_app, Lk.
        rewrite (skipn_all2 (n := k + j)) by (rewrite Lk; lia). cbn [app].
        replace (k + j - k)%nat with j by lia. exact H2.
Qed.
Lemma with_length_spec len acc s d c : holds d c s ->
  exists s', with_length len acc s = (len <=? blen d, acc ++ firstn (N.to_nat len) d, s') /\ holds (skipn (N.to_nat len) d) c s'.
Proof. intro H. unfold with_length. apply with_length_loop_spec; [exact H|]. destruct H as [D _]. rewrite D. lia. Qed.

Lemma without_length_loop_spec : forall fuel acc s d c, holds d c s -> (List.length d < fuel)%nat ->
  exists s', without_length_loop fuel acc s = (acc ++ d, s') /\ holds [] c s'.
Proof.
  induction fuel as [|fuel IH]; intros acc s d c H L; [lia|]. cbn [without_length_loop]. destruct d as [|b d].
  - rewrite (read_none 4096 s c H). exists s. rewrite app_nil_r. split; [destruct c; reflexivity|exact H].
  - destruct (read_some 4096 s b d c H ltac:(lia)) as (k & s1 & K1 & K2 & R & H1). rewrite R. cbn [List.length] in L.
    destruct (IH (acc ++ firstn k (b :: d)) s1 (skipn k (b :: d)) c H1 ltac:(rewrite skipn_length; cbn [List.length]; lia)) as (s2 & E & H2).
    exists s2. split; [|exact H2]. rewrite E, <- app_assoc, firstn_skipn. reflexivity.
Qed.
Lemma without_length_spec s d c : holds d c s -> exists s', without_length s = (d, s') /\ holds [] c s'.
Proof. intro H. unfold without_length. destruct (without_length_loop_spec (S (List.length (st_data s))) [] s d c H) as (s' & E & H'); [destruct H as [-> _]; lia|]. exists s'. split; [exact E|exact H']. Qed.
