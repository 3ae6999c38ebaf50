(** Proofs about the configuration. *)
From Verif Require Import Base PBase MOs MHeap MArray MConfig SHeap SArray SConfig PHeap PArray PBlocks.
Open Scope N_scope.

Inductive slot := SNull | SStr (t : bytes) | SList (items : list (bytes * Z)) | SDang.
Definition slot_ok (base : N) (h : heap) (v : val) (s : slot) (F : list N) : Prop :=
  match s with
  | SNull => v = P 0 /\ F = []
  | SStr t => exists a d, v = P a /\ a <> 0 /\ F = [a] /\ hp_cell h a = Live (Buf d) /\ In 0 d /\ c_string d = t
  | SList items => exists H, v = P H /\ alist h H items F
  | SDang => exists H, v = P H /\ H <> 0 /\ hp_cell h H = Freed /\ F = []
  end.
Definition ups {A} (m : nat -> A) (i : nat) (s : A) : nat -> A := fun j => if Nat.eqb j i then s else m j.
Lemma ups_same : forall A (m : nat -> A) i s, ups m i s i = s.
Proof. intros. unfold ups. rewrite Nat.eqb_refl. reflexivity. Qed.
Lemma ups_other : forall A (m : nat -> A) i s j, j <> i -> ups m i s j = m j.
Proof. intros A m i s j H. unfold ups. apply Nat.eqb_neq in H. rewrite H. reflexivity. Qed.

(** The configuration [cfg] holds [m]; field [i] owns the blocks [foot i]; the
    other live blocks are those of [T]. *)
Definition cst (base : N) (h : heap) (cfg : N) (m : nat -> slot) (foot : nat -> list N) (T : N -> Prop) : Prop :=
  only base h (fun a => T a \/ exists i, In a (foot i)) /\ cfg < base /\ cfg <> 0 /\
  (exists fs, hp_cell h cfg = Live (Struct fs) /\ List.length fs = cfg_fields /\ (forall i, (cfg_fields <= i)%nat -> foot i = []) /\ forall i v, nth_error fs i = Some v -> slot_ok base h v (m i) (foot i)) /\
  (forall i j a, In a (foot i) -> In a (foot j) -> i = j) /\
  (forall i a, In a (foot i) -> base <= a /\ ~ T a).

Lemma slot_frame : forall base h h' v s F, slot_ok base h v s F -> (forall a, In a F -> hp_cell h' a = hp_cell h a) -> (forall a, hp_cell h a = Freed -> hp_cell h' a = Freed) -> slot_ok base h' v s F.
Proof.
  intros base h h' v s F S E Fr. destruct s; cbn [slot_ok] in *.
  - exact S.
  - destruct S as (a & d & V & A0 & -> & C & D). exists a, d. repeat (split; [assumption|]). split; [reflexivity|]. split; [rewrite E by (left; reflexivity); exact C|exact D].
  - destruct S as (H & V & AL). exists H. split; [exact V|]. eapply alist_frame; eassumption.
  - destruct S as (H & V & H0 & C & F0). exists H. auto.
Qed.

Lemma cst_ext : forall base h cfg m m' foot T, cst base h cfg m foot T -> (forall i, m i = m' i) -> cst base h cfg m' foot T.
Proof.
  intros base h cfg m m' foot T (O & B & B0 & (fs & C & L & Z & S) & D & T1) E. repeat (split; [assumption|]). split; [|auto]. exists fs. split; [exact C|]. split; [exact L|]. split; [exact Z|]. intros i v Hv. rewrite <- E. apply S. exact Hv.
Qed.

(** Steps that do not touch the configuration. *)
Lemma cst_step : forall base h h' cfg m foot (T T' : N -> Prop), cst base h cfg m foot T ->
  only base h' (fun a => T' a \/ exists i, In a (foot i)) -> hp_cell h' cfg = hp_cell h cfg ->
  (forall i a, In a (foot i) -> hp_cell h' a = hp_cell h a /\ ~ T' a) -> (forall a, hp_cell h a = Freed -> hp_cell h' a = Freed) -> cst base h' cfg m foot T'.
Proof.
  intros base h h' cfg m foot T T' (O & B & B0 & (fs & C & L & Z & S) & D & T1) O' C' E Fr. split; [exact O'|]. split; [exact B|]. split; [exact B0|]. split.
  - exists fs. split; [congruence|]. split; [exact L|]. split; [exact Z|]. intros i v Hv. eapply slot_frame; [apply S; exact Hv| |exact Fr]. intros a Ha. apply (E i a Ha).
  - split; [exact D|]. intros i a Ha. split; [apply (T1 i a Ha)|apply (E i a Ha)].
Qed.

Definition ext (base cfg : N) (h h' : heap) : Prop :=
  hp_oom h' = hp_oom h /\ hp_next h <= hp_next h' /\ forall a, a < base -> a <> cfg -> hp_cell h' a = hp_cell h a.
Lemma ext_refl : forall base cfg h, ext base cfg h h.
Proof. intros. split; [reflexivity|]. split; [lia|auto]. Qed.
Lemma ext_trans : forall base cfg h h1 h2, ext base cfg h h1 -> ext base cfg h1 h2 -> ext base cfg h h2.
Proof. intros base cfg h h1 h2 (A & B & C) (A' & B' & C'). split; [congruence|]. split; [lia|]. intros a H1 H2. rewrite C', C by assumption. reflexivity. Qed.

Lemma foot_live : forall base h cfg m foot T i a, cst base h cfg m foot T -> In a (foot i) -> is_live h a.
Proof. intros base h cfg m foot T i a ((W & B & L) & _ & _ & _ & _ & T1) Ha. apply (L a (proj1 (T1 i a Ha))). right. exists i. exact Ha. Qed.

Lemma cst_alloc : forall base h cfg m foot (T : N -> Prop) b, cst base h cfg m foot T -> exists a h', alloc h b = (a, h') /\ hp_next h' = hp_next h + 1 /\ ext base cfg h h' /\
  ((a = 0 /\ hp_oom h (hp_next h) = true /\ cst base h' cfg m foot T) \/
   (a <> 0 /\ base <= a /\ hp_oom h (hp_next h) = false /\ hp_cell h' a = Live b /\ ~ T a /\ (forall x, x <> a -> hp_cell h' x = hp_cell h x) /\ cst base h' cfg m foot (fun x => T x \/ x = a))).
Proof.
  intros base h cfg m foot T b C. pose proof C as (O & B & B0 & _ & _ & T1). destruct (only_alloc _ _ _ b O) as (a & h' & E & Ho & Hn & Cs). exists a, h'. split; [exact E|]. split; [exact Hn|].
  destruct Cs as [(A & Oo & Cx & O')|(A & A0 & Ab & Oo & Ca & Cf & Cx & O')].
  - split; [split; [exact Ho|]; split; [lia|]; intros; apply Cx|]. left. split; [exact A|]. split; [exact Oo|]. eapply cst_step; [exact C|exact O'|apply Cx| |intros x; rewrite Cx; auto]. intros i x Hx. split; [apply Cx|]. apply (T1 i x Hx).
  - split; [split; [exact Ho|]; split; [lia|]; intros; apply Cx; lia|]. right. split; [exact A0|]. split; [exact Ab|]. split; [exact Oo|]. split; [exact Ca|].
    assert (NT : ~ T a). { intros Q. destruct O as (_ & _ & L). assert (is_live h a) as [y Hy] by (apply (L a Ab); left; exact Q). congruence. }
    split; [exact NT|]. split; [exact Cx|]. eapply cst_step; [exact C| |apply Cx; lia| |].
    + eapply only_iff; [exact O'|]. intros x Hx. cbn beta. tauto.
    + intros i x Hx. assert (x <> a). { intros ->. destruct (foot_live _ _ _ _ _ _ _ _ C Hx) as [y Hy]. congruence. } split; [apply Cx; assumption|]. intros [Q|Q]; [apply (proj2 (T1 i x Hx) Q)|congruence].
    + intros x Hx. rewrite Cx; [exact Hx|]. congruence.
Qed.

Lemma temp_live : forall base h cfg m foot (T : N -> Prop) a, cst base h cfg m foot T -> T a -> base <= a -> is_live h a.
Proof. intros base h cfg m foot T a ((W & B & L) & _) Ta Ha. apply (L a Ha). left. exact Ta. Qed.

Lemma cst_free_temp : forall base h cfg m foot (T : N -> Prop) a, cst base h cfg m foot (fun x => T x \/ x = a) -> base <= a -> ~ T a ->
  exists h', sys_free h a = Ok h' /\ hp_next h' = hp_next h /\ ext base cfg h h' /\ (forall x, x <> a -> hp_cell h' x = hp_cell h x) /\ cst base h' cfg m foot T.
Proof.
  intros base h cfg m foot T a C Ha NT. pose proof C as (O & B & B0 & _ & _ & T1). assert (Lv : is_live h a) by (eapply temp_live; [exact C|right; reflexivity|exact Ha]).
  destruct (free_live h a (proj1 O) Lv) as [E W]. exists (put h a Freed). split; [exact E|]. split; [reflexivity|]. split; [split; [reflexivity|]; split; [cbn; lia|]; intros x Hx _; apply put_other; lia|].
  split; [intros; apply put_other; assumption|]. eapply cst_step; [exact C| |apply put_other; lia| |].
  - eapply only_iff; [apply only_freed; [exact O|exact Lv]|]. intros x Hx. cbn beta. split.
    + intros [[[Q|Q]|Q] N]; [left; exact Q|congruence|right; exact Q].
    + intros [Q|[i Q]]; (split; [|intros ->]); [left; left; exact Q|contradiction|right; exists i; exact Q|]. apply (proj2 (T1 i a Q)). right. reflexivity.
  - intros i x Hx. destruct (T1 i x Hx) as [_ N]. split; [apply put_other; intros ->; apply N; right; reflexivity|]. intros Q. apply N. left. exact Q.
  - intros x Hx. destruct (N.eq_dec x a) as [->|Hne]; [apply put_same|rewrite put_other by exact Hne; exact Hx].
Qed.

Lemma cst_write_temp : forall base h cfg m foot (T : N -> Prop) a b, cst base h cfg m foot T -> T a -> base <= a ->
  ext base cfg h (put h a (Live b)) /\ cst base (put h a (Live b)) cfg m foot T.
Proof.
  intros base h cfg m foot T a b C Ta Ha. pose proof C as (O & B & B0 & _ & _ & T1). pose proof (temp_live _ _ _ _ _ _ _ C Ta Ha) as Lv.
  split; [split; [reflexivity|]; split; [cbn; lia|]; intros x Hx _; apply put_other; lia|].
  eapply cst_step; [exact C|apply only_write; [exact O|exact Lv]|apply put_other; lia| |].
  - intros i x Hx. destruct (T1 i x Hx) as [_ N]. split; [apply put_other; intros ->; contradiction|exact N].
  - intros x Hx. destruct (N.eq_dec x a) as [->|Hne]; [destruct Lv as [y Hy]; congruence|rewrite put_other by exact Hne; exact Hx].
Qed.

(** Changing a field. *)
Lemma set_nthv_len : forall l i v, List.length (set_nthv l i v) = List.length l.
Proof. induction l; intros [|i] v; cbn; auto. Qed.
Lemma set_nthv_at : forall l i v, (i < List.length l)%nat -> nth_error (set_nthv l i v) i = Some v.
Proof. induction l; intros [|i] v H; cbn in *; try lia; [reflexivity|]. apply IHl. lia. Qed.
Lemma set_nthv_ne : forall l i j v, i <> j -> nth_error (set_nthv l i v) j = nth_error l j.
Proof. induction l; intros [|i] [|j] v H; cbn; try reflexivity; try lia. apply IHl. lia. Qed.

Lemma cst_set : forall base h cfg m foot (T T' : N -> Prop) i v s F, cst base h cfg m foot T -> (i < cfg_fields)%nat -> slot_ok base h v s F ->
  (forall a, In a F -> base <= a /\ ~ T' a /\ forall j, j <> i -> ~ In a (foot j)) ->
  (forall a, base <= a -> (T a \/ In a (foot i) <-> T' a \/ In a F)) ->
  (forall j a, j <> i -> In a (foot j) -> ~ T' a) ->
  exists h', set_field h cfg i v = Ok h' /\ hp_next h' = hp_next h /\ ext base cfg h h' /\ (forall x, x <> cfg -> hp_cell h' x = hp_cell h x) /\ cst base h' cfg (ups m i s) (ups foot i F) T'.
Proof.
  intros base h cfg m foot T T' i v s F C Hi Sl HF HT HJ. pose proof C as (O & B & B0 & (fs & Cc & L & Z & S) & D & T1).
  destruct (nth_error fs i) as [x|] eqn:Ex; [|apply nth_error_None in Ex; lia].
  erewrite set_field_at; [|exact B0|exact Cc|exact Ex]. eexists. split; [reflexivity|]. split; [reflexivity|]. split; [split; [reflexivity|]; split; [cbn; lia|]; intros y _ Hy; apply put_other; exact Hy|].
  split; [intros; apply put_other; assumption|].
  assert (Fr : forall a, hp_cell h a = Freed -> hp_cell (put h cfg (Live (Struct (set_nthv fs i v)))) a = Freed).
  { intros a Ha. rewrite put_other; [exact Ha|]. intros ->. congruence. }
  split; [|split; [exact B|split; [exact B0|split; [|split]]]].
  - eapply only_iff; [apply only_write; [exact O|eexists; exact Cc]|]. intros a Ha. cbn beta. split.
    + intros [Q|[j Q]].
      * destruct (proj1 (HT a Ha) (or_introl Q)) as [X|X]; [left; exact X|]. right. exists i. rewrite ups_same. exact X.
      * destruct (Nat.eq_dec j i) as [->|Hj]; [|right; exists j; rewrite ups_other by exact Hj; exact Q].
        destruct (proj1 (HT a Ha) (or_intror Q)) as [X|X]; [left; exact X|]. right. exists i. rewrite ups_same. exact X.
    + intros [Q|[j Q]].
      * destruct (proj2 (HT a Ha) (or_introl Q)) as [X|X]; [left; exact X|]. right. exists i. exact X.
      * destruct (Nat.eq_dec j i) as [->|Hj]; [rewrite ups_same in Q|rewrite ups_other in Q by exact Hj; right; exists j; exact Q].
        destruct (proj2 (HT a Ha) (or_intror Q)) as [X|X]; [left; exact X|]. right. exists i. exact X.
  - exists (set_nthv fs i v). split; [apply put_same|]. split; [rewrite set_nthv_len; exact L|]. split; [intros j Hj; rewrite ups_other by lia; apply Z; exact Hj|]. intros j y Hy. destruct (Nat.eq_dec j i) as [->|Hj].
    + rewrite set_nthv_at in Hy by lia. injection Hy as <-. rewrite !ups_same. eapply slot_frame; [exact Sl| |exact Fr]. intros a Ha. apply put_other. destruct (HF a Ha) as [Hb _]. lia.
    + rewrite set_nthv_ne in Hy by congruence. rewrite !ups_other by exact Hj. eapply slot_frame; [apply S; exact Hy| |exact Fr]. intros a Ha. apply put_other. destruct (T1 j a Ha) as [Hb _]. lia.
  - intros j k a Hj Hk. destruct (Nat.eq_dec j i) as [->|Nj]; destruct (Nat.eq_dec k i) as [->|Nk]; [reflexivity| | |].
    + rewrite ups_same in Hj. rewrite ups_other in Hk by exact Nk. destruct (HF a Hj) as (_ & _ & X). exfalso. exact (X k Nk Hk).
    + rewrite ups_same in Hk. rewrite ups_other in Hj by exact Nj. destruct (HF a Hk) as (_ & _ & X). exfalso. exact (X j Nj Hj).
    + rewrite ups_other in Hj by exact Nj. rewrite ups_other in Hk by exact Nk. eapply D; eassumption.
  - intros j a Ha. destruct (Nat.eq_dec j i) as [->|Nj].
    + rewrite ups_same in Ha. destruct (HF a Ha) as (X & Y & _). auto.
    + rewrite ups_other in Ha by exact Nj. split; [apply (T1 j a Ha)|eapply HJ; eassumption].
Qed.

Lemma cst_field : forall base h cfg m foot T i, cst base h cfg m foot T -> (i < cfg_fields)%nat -> exists v, get_field h cfg i = Ok v /\ slot_ok base h v (m i) (foot i).
Proof.
  intros base h cfg m foot T i (O & B & B0 & (fs & Cc & L & Z & S) & _) Hi. destruct (nth_error fs i) as [x|] eqn:Ex; [|apply nth_error_None in Ex; lia].
  exists x. split; [unfold get_field; rewrite (load_struct _ _ _ B0 Cc); cbn [obind]; rewrite Ex; reflexivity|]. apply S. exact Ex.
Qed.
Lemma get_ptr_of : forall h a i p, get_field h a i = Ok (P p) -> get_ptr h a i = Ok p.
Proof. intros h a i p E. unfold get_ptr. rewrite E. reflexivity. Qed.

(** *** Strings *)
Lemma c_string_app : forall t d, cstr_ok t -> c_string (t ++ 0 :: d) = t.
Proof.
  induction t as [|c t IH]; intros d H; cbn [app c_string]; [reflexivity|]. inversion H as [|? ? H1 H2]; subst. destruct (c =? 0) eqn:E; [apply N.eqb_eq in E; destruct H1; lia|]. rewrite IH by exact H2. reflexivity.
Qed.
Lemma write_buf : forall h a d t, a <> 0 -> hp_cell h a = Live (Buf d) -> blen t < blen d -> write_string h a t = Ok (put h a (Live (Buf (t ++ [0] ++ skipn (S (List.length t)) d)))).
Proof. intros h a d t A0 C L. unfold write_string, load_buf. rewrite (proj2 (N.eqb_neq _ _) A0), C. cbn [obind]. rewrite (proj2 (N.ltb_lt _ _) L). reflexivity. Qed.
Lemma written_len : forall (t d : bytes), blen t < blen d -> blen (t ++ [0] ++ skipn (S (List.length t)) d) = blen d.
Proof. intros t d H. unfold blen in *. rewrite !app_length, skipn_length. cbn [List.length]. lia. Qed.
Lemma read_string : forall h a t d, a <> 0 -> cstr_ok t -> hp_cell h a = Live (Buf (t ++ [0] ++ d)) -> heap_string h a = Ok t.
Proof. intros h a t d A0 Ht C. erewrite heap_string_exact; [|exact A0|exact C|apply in_or_app; right; left; reflexivity]. cbn [app]. rewrite c_string_app by exact Ht. reflexivity. Qed.
Lemma zeros_len : forall n, blen (repeat 0 (N.to_nat n)) = n.
Proof. intros n. unfold blen. rewrite repeat_length. lia. Qed.

Definition text_slot (t : bytes) : slot := match t with [] => SNull | _ => SStr t end.

Lemma load_string_step : forall ini sec base h cfg m foot (T : N -> Prop) fld key def size, cst base h cfg m foot T -> (fld < cfg_fields)%nat -> m fld = SNull -> cstr_ok def -> 0 < size -> ini_ok ini ->
  exists ok h' foot', load_string ini sec h cfg (fld, key, def, size) = Ok (ok, h') /\ ext base cfg h h' /\ hp_next h' = hp_next h + 1 /\
    ((ok = false /\ hp_oom h (hp_next h) = true /\ cst base h' cfg m foot' T) \/
     (ok = true /\ hp_oom h (hp_next h) = false /\ cst base h' cfg (ups m fld (text_slot (ini_gets ini sec key def size))) foot' T)).
Proof.
  intros ini sec base h cfg m foot T fld key def size C Hf Hm Hd Hs [_ Hi]. unfold load_string. destruct (cst_alloc _ _ _ _ _ _ (zeros size) C) as (a & h1 & E & Hn & X1 & Cs). rewrite E.
  destruct Cs as [(-> & Oo & C1)|(A0 & Ab & Oo & Ca & NT & _ & C1)].
  { cbn [N.eqb]. exists false, h1, foot. auto 10. }
  rewrite (proj2 (N.eqb_neq _ _) A0). destruct (Hi sec key def size Hd Hs) as [Ht Hl]. set (t := ini_gets ini sec key def size) in *.
  erewrite write_buf; [|exact A0|exact Ca|rewrite zeros_len; exact Hl]. cbn [obind].
  destruct (cst_write_temp _ _ _ _ _ _ a (Buf (t ++ [0] ++ skipn (S (List.length t)) (repeat 0 (N.to_nat size)))) C1 (or_intror eq_refl) Ab) as [X2 C2].
  match goal with |- context [set_field ?x _ _ _] => set (h2 := x) in * end.
  assert (Ca2 : hp_cell h2 a = Live (Buf (t ++ [0] ++ skipn (S (List.length t)) (repeat 0 (N.to_nat size))))) by apply put_same.
  destruct (cst_field _ _ _ _ _ _ fld C Hf) as (v & _ & Sv). rewrite Hm in Sv. destruct Sv as [_ F0].
  assert (NF : forall j, ~ In a (foot j)). { intros j Q. destruct C1 as (_ & _ & _ & _ & _ & T1). destruct (T1 j a Q) as [_ N]. apply N. right. reflexivity. }
  destruct (cst_set base h2 cfg m foot (fun x => T x \/ x = a) T fld (P a) (SStr t) [a] C2 Hf) as (h3 & E3 & Hn3 & X3 & Cx3 & C3).
  { exists a, (t ++ [0] ++ skipn (S (List.length t)) (repeat 0 (N.to_nat size))). split; [reflexivity|]. split; [exact A0|]. split; [reflexivity|]. split; [exact Ca2|]. split; [apply in_or_app; right; left; reflexivity|]. apply c_string_app. exact Ht. }
  { intros x [<-|[]]. auto. }
  { intros x Hx. rewrite F0. cbn [In]. intuition. }
  { intros j x _ Hx Q. destruct C as (_ & _ & _ & _ & _ & T1). apply (proj2 (T1 j x Hx) Q). }
  rewrite E3. cbn [obind]. assert (Cfg : cfg < base) by apply C.
  rewrite (read_string h3 a t (skipn (S (List.length t)) (repeat 0 (N.to_nat size))) A0 Ht) by (rewrite Cx3 by lia; exact Ca2). cbn [obind].
  destruct t as [|c t'] eqn:Et.
  - change (blen [] =? 0) with true. cbv iota.
    destruct (cst_set base h3 cfg (ups m fld (SStr [])) (ups foot fld [a]) T (fun x => T x \/ x = a) fld (P 0) SNull [] C3 Hf) as (h4 & E4 & Hn4 & X4 & Cx4 & C4).
    { split; reflexivity. } { intros x []. } { intros x Hx. rewrite ups_same. cbn [In]. intuition. }
    { intros j x Nj Hx Q. rewrite ups_other in Hx by exact Nj. destruct C1 as (_ & _ & _ & _ & _ & T1). apply (proj2 (T1 j x Hx) Q). }
    rewrite E4. cbn [obind]. destruct (cst_free_temp _ _ _ _ _ _ _ C4 Ab NT) as (h5 & E5 & Hn5 & X5 & _ & C5). rewrite E5. cbn [obind].
    exists true, h5, (ups (ups foot fld [a]) fld []). split; [reflexivity|]. split; [eapply ext_trans; [exact X1|]; eapply ext_trans; [exact X2|]; eapply ext_trans; [exact X3|]; eapply ext_trans; eassumption|].
    split; [cbn [put hp_next] in *; unfold h2 in Hn3; cbn [put hp_next] in Hn3; lia|]. right. split; [reflexivity|]. split; [exact Oo|]. eapply cst_ext; [exact C5|]. intros j. cbn [text_slot]. unfold ups. destruct (Nat.eqb j fld); reflexivity.
  - destruct (blen (c :: t') =? 0) eqn:Ez; [apply N.eqb_eq in Ez; unfold blen in Ez; cbn in Ez; lia|].
    exists true, h3, (ups foot fld [a]). split; [reflexivity|]. split; [eapply ext_trans; [exact X1|]; eapply ext_trans; eassumption|]. split; [unfold h2 in Hn3; cbn [put hp_next] in Hn3; lia|]. right. auto.
Qed.

(** *** Lists *)
Lemma cst_slot : forall base h h' cfg m foot (T : N -> Prop) i v s F, cst base h cfg m foot T -> (i < cfg_fields)%nat -> get_field h cfg i = Ok v ->
  only base h' (fun a => T a \/ In a F \/ exists j, j <> i /\ In a (foot j)) -> hp_cell h' cfg = hp_cell h cfg ->
  (forall j a, j <> i -> In a (foot j) -> hp_cell h' a = hp_cell h a) -> (forall a, hp_cell h a = Freed -> hp_cell h' a = Freed) ->
  slot_ok base h' v s F -> (forall a, In a F -> base <= a /\ ~ T a /\ forall j, j <> i -> ~ In a (foot j)) -> cst base h' cfg (ups m i s) (ups foot i F) T.
Proof.
  intros base h h' cfg m foot T i v s F C Hi G O' C' E Fr Sl HF. pose proof C as (O & B & B0 & (fs & Cc & L & Z & S) & D & T1).
  split; [|split; [exact B|split; [exact B0|split; [|split]]]].
  - eapply only_iff; [exact O'|]. intros a Ha. cbn beta. split.
    + intros [Q|[Q|(j & Hj & Q)]]; [left; exact Q|right; exists i; rewrite ups_same; exact Q|right; exists j; rewrite ups_other by exact Hj; exact Q].
    + intros [Q|[j Q]]; [left; exact Q|]. right. destruct (Nat.eq_dec j i) as [->|Hj]; [rewrite ups_same in Q; left; exact Q|rewrite ups_other in Q by exact Hj; right; exists j; auto].
  - exists fs. split; [congruence|]. split; [exact L|]. split; [intros j Hj; rewrite ups_other by lia; apply Z; exact Hj|]. intros j y Hy. destruct (Nat.eq_dec j i) as [->|Hj].
    + rewrite !ups_same. unfold get_field in G. rewrite (load_struct _ _ _ B0 Cc) in G. cbn [obind] in G. rewrite Hy in G. injection G as <-. exact Sl.
    + rewrite !ups_other by exact Hj. eapply slot_frame; [apply S; exact Hy| |exact Fr]. intros a Ha. eapply E; eassumption.
  - intros j k a Hj Hk. destruct (Nat.eq_dec j i) as [->|Nj]; destruct (Nat.eq_dec k i) as [->|Nk]; [reflexivity| | |].
    + rewrite ups_same in Hj. rewrite ups_other in Hk by exact Nk. destruct (HF a Hj) as (_ & _ & X). exfalso. exact (X k Nk Hk).
    + rewrite ups_same in Hk. rewrite ups_other in Hj by exact Nj. destruct (HF a Hk) as (_ & _ & X). exfalso. exact (X j Nj Hj).
    + rewrite ups_other in Hj by exact Nj. rewrite ups_other in Hk by exact Nk. eapply D; eassumption.
  - intros j a Ha. destruct (Nat.eq_dec j i) as [->|Nj].
    + rewrite ups_same in Ha. destruct (HF a Ha) as (X & Y & _). auto.
    + rewrite ups_other in Ha by exact Nj. apply (T1 j a Ha).
Qed.

Lemma cst_free_list : forall base h cfg m foot (T : N -> Prop) i items, cst base h cfg m foot T -> (i < cfg_fields)%nat -> m i = SList items ->
  exists H h', get_ptr h cfg i = Ok H /\ free_array_list h H = Ok h' /\ ext base cfg h h' /\ cst base h' cfg (ups m i SDang) (ups foot i []) T.
Proof.
  intros base h cfg m foot T i items C Hi Hm. pose proof C as (O & B & B0 & (fs & Cc & L & Z & S) & D & T1). destruct (cst_field _ _ _ _ _ _ i C Hi) as (v & G & Sv). rewrite Hm in Sv. destruct Sv as (H & -> & AL).
  destruct (free_alist h H items (foot i) (proj1 O) AL) as (h' & E & R & W & Hn & Ho). exists H, h'. split; [apply get_ptr_of; exact G|]. split; [exact E|]. pose proof R as [R1 R2].
  assert (Rb : forall a, a < base -> hp_cell h' a = hp_cell h a). { intros a Ha. apply R2. intros Q. destruct (T1 i a Q) as [Q1 _]. lia. }
  split; [split; [exact Ho|]; split; [lia|]; intros; apply Rb; assumption|].
  destruct (alist_head _ _ _ _ AL) as [HF H0].
  eapply cst_slot; [exact C|exact Hi|exact G| |apply Rb; exact B| | | |intros a []].
  - eapply only_iff; [eapply only_free_alist; eassumption|]. intros a Ha. cbn beta. split.
    + intros [[Q|[j Q]] N]; [left; exact Q|]. right. right. exists j. split; [intros ->; contradiction|exact Q].
    + intros [Q|[[]|(j & Hj & Q)]].
      * split; [left; exact Q|]. intros X. apply (proj2 (T1 i a X) Q).
      * split; [right; exists j; exact Q|]. intros X. apply Hj. eapply D; eassumption.
  - intros j a Hj Ha. apply R2. intros X. apply Hj. eapply D; eassumption.
  - intros a Ha. destruct (in_dec N.eq_dec a (foot i)) as [Hin|Hni]; [apply R1; exact Hin|rewrite R2 by exact Hni; exact Ha].
  - exists H. split; [reflexivity|]. split; [exact H0|]. split; [apply R1; exact HF|reflexivity].
Qed.

Lemma cst_only : forall base h h' cfg m foot (T : N -> Prop), cst base h cfg m foot T -> heap_wf h' -> base <= hp_next h' -> (forall x, hp_cell h' x = hp_cell h x) -> cst base h' cfg m foot T.
Proof.
  intros base h h' cfg m foot T C W B E. pose proof C as (O & _ & _ & _ & _ & T1). eapply cst_step; [exact C|eapply only_same; [exact O|exact W|exact B|intros; apply E]|apply E| |intros a; rewrite E; auto].
  intros i a Ha. split; [apply E|]. apply (T1 i a Ha).
Qed.
Lemma cst_low : forall base h cfg m foot (T : N -> Prop) i a, cst base h cfg m foot T -> T a -> ~ In a (foot i).
Proof. intros base h cfg m foot T i a (_ & _ & _ & _ & _ & T1) Ta Q. apply (proj2 (T1 i a Q) Ta). Qed.

Lemma cst_push : forall base h cfg m foot (T : N -> Prop) i items arr d len fl, cst base h cfg m foot T -> (i < cfg_fields)%nat -> m i = SList items ->
  T arr -> base <= arr -> hp_cell h arr = Live (Buf d) -> len <= blen d ->
  exists H, get_ptr h cfg i = Ok H /\
  ((hp_oom h (hp_next h) = true /\ exists h', push_array_list h H arr len fl = Ok ((-1)%Z, h') /\ ext base cfg h h' /\ cst base h' cfg m foot T) \/
   (hp_oom h (hp_next h) = false /\ hp_oom h (hp_next h + 1) = true /\ push_array_list h H arr len fl = UB NullDeref) \/
   (hp_oom h (hp_next h) = false /\ hp_oom h (hp_next h + 1) = false /\ exists h' foot', push_array_list h H arr len fl = Ok (0%Z, h') /\ ext base cfg h h' /\ hp_next h' = hp_next h + 2 /\
      (forall a, T a -> base <= a -> hp_cell h' a = hp_cell h a) /\ cst base h' cfg (ups m i (SList (items ++ [(firstn (N.to_nat len) d, fl)]))) foot' T)).
Proof.
  intros base h cfg m foot T i items arr d len fl C Hi Hm Ta Ba Ca Hl. pose proof C as (O & B & B0 & (fs & Cc & L & Z & S) & D & T1).
  destruct (cst_field _ _ _ _ _ _ i C Hi) as (v & G & Sv). rewrite Hm in Sv. destruct Sv as (H & -> & AL). exists H. split; [apply get_ptr_of; exact G|].
  pose proof O as (W & Bn & Lv). assert (A0 : arr <> 0) by (apply (live_nz _ _ W); eexists; exact Ca).
  assert (Nn : forall a, is_live h a -> a < hp_next h) by (intros; eapply live_below; eassumption).
  assert (Cb : cfg < hp_next h) by (apply Nn; eexists; exact Cc).
  destruct (push_alist h H items (foot i) arr d len fl W AL A0 Ca Hl) as [(Oo & h' & E & W' & Hn & Ho & Cx)|[(O1 & O2 & E)|(O1 & O2 & h' & F' & E & W' & Hn & Ho & AL' & HF & Cx)]].
  - left. split; [exact Oo|]. exists h'. split; [exact E|]. split; [split; [exact Ho|]; split; [lia|]; intros; apply Cx|]. eapply cst_only; [exact C|exact W'|lia|exact Cx].
  - right. left. auto.
  - right. right. split; [exact O1|]. split; [exact O2|]. exists h', (ups foot i F'). split; [exact E|].
    assert (Cl : forall a, ~ In a (foot i) -> a < hp_next h -> hp_cell h' a = hp_cell h a) by (intros a Q1 Q2; apply Cx; [exact Q1|lia|lia]).
    assert (Low : forall a, a < base -> hp_cell h' a = hp_cell h a). { intros a Ha. apply Cl; [|lia]. intros Q. destruct (T1 i a Q). lia. }
    split; [split; [exact Ho|]; split; [lia|]; intros; apply Low; assumption|]. split; [exact Hn|].
    assert (CT : forall a, T a -> base <= a -> hp_cell h' a = hp_cell h a). { intros a Q Ha. apply Cl; [eapply cst_low; eassumption|]. apply Nn. eapply temp_live; eassumption. }
    split; [exact CT|]. assert (NT : forall a, T a -> base <= a -> a < hp_next h) by (intros; apply Nn; eapply temp_live; eassumption).
    assert (NF : forall j a, In a (foot j) -> a < hp_next h) by (intros; apply Nn; eapply foot_live; eassumption).
    eapply cst_slot; [exact C|exact Hi|exact G| |apply Low; exact B| | |exists H; split; [reflexivity|exact AL']|].
    + split; [exact W'|]. split; [lia|]. intros a Ha. split.
      * intros La. destruct (in_dec N.eq_dec a F') as [Hin|Hni]; [right; left; exact Hin|]. assert (~ In a (foot i)) by (intros Q; apply Hni; apply HF; left; exact Q).
        assert (a <> hp_next h /\ a <> hp_next h + 1) as [Q1 Q2] by (split; intros Q; apply Hni; apply HF; right; auto).
        unfold is_live in La. rewrite Cx in La by assumption. apply (Lv a Ha) in La. destruct La as [X|[j X]]; [left; exact X|]. right. right. exists j. split; [intros ->; contradiction|exact X].
      * intros [X|[X|(j & Hj & X)]].
        -- unfold is_live. rewrite CT by assumption. eapply temp_live; eassumption.
        -- eapply alist_live; eassumption.
        -- unfold is_live. rewrite Cl; [eapply foot_live; eassumption| |eapply NF; exact X]. intros Q. apply Hj. eapply D; eassumption.
    + intros j a Hj Ha. apply Cl; [|eapply NF; exact Ha]. intros Q. apply Hj. eapply D; eassumption.
    + intros a Ha. rewrite Cx; [exact Ha| | |].
      * intros Q. destruct (foot_live _ _ _ _ _ _ _ _ C Q) as [y Hy]. congruence.
      * intros ->. destruct W as (_ & _ & W3). rewrite W3 in Ha by lia. discriminate.
      * intros ->. destruct W as (_ & _ & W3). rewrite W3 in Ha by lia. discriminate.
    + intros a Ha. apply HF in Ha. destruct Ha as [Ha|Ha].
      * destruct (T1 i a Ha) as [Q1 Q2]. split; [exact Q1|]. split; [exact Q2|]. intros j Hj Q. apply Hj. eapply D; eassumption.
      * assert (hp_next h <= a) by lia. split; [lia|]. split; [intros Q; assert (base <= a) as Q2 by lia; pose proof (NT a Q Q2); lia|]. intros j _ Q. apply NF in Q. lia.
Qed.

Lemma oomed_ext : forall base cfg h h', ext base cfg h h' -> oomed h' -> oomed h.
Proof. intros base cfg h h' (E & L & _) (a & Ha & Q). exists a. split; [lia|]. rewrite <- E. exact Q. Qed.

Definition one_value (m : ini) (sec key k : bytes) : list (bytes * Z) :=
  if beqb k key && negb (blen (ini_gets m sec k [] INI_BUFFERSIZE) =? 0) then [(ini_gets m sec k [] INI_BUFFERSIZE ++ [0], 0%Z)] else [].

Lemma firstn_text : forall (t d : bytes), firstn (N.to_nat (blen t + 1)) (t ++ [0] ++ d) = t ++ [0].
Proof.
  intros t d. replace (N.to_nat (blen t + 1)) with (List.length t + 1)%nat by (unfold blen; lia). rewrite firstn_app_2. reflexivity.
Qed.

Lemma cst_texts : forall base h cfg m m' foot (T T' : N -> Prop), cst base h cfg m foot T -> (forall i, m i = m' i) -> (forall x, T x <-> T' x) -> cst base h cfg m' foot T'.
Proof.
  intros base h cfg m m' foot T T' C E ET. apply cst_ext with (m' := m') in C; [|exact E]. destruct C as (O & B & B0 & X & D & T1). split; [|split; [exact B|split; [exact B0|split; [exact X|split; [exact D|]]]]].
  - eapply only_iff; [exact O|]. intros a _. cbn beta. rewrite ET. tauto.
  - intros i a Ha. destruct (T1 i a Ha) as [Q1 Q2]. split; [exact Q1|]. rewrite <- ET. exact Q2.
Qed.

Lemma list_loop : forall ini sec key base cfg fld store (T : N -> Prop), ini_ok ini -> (fld < cfg_fields)%nat -> base <= store -> ~ T store -> store <> 0 ->
  forall ks h m foot items d, Forall (fun k => cstr_ok k /\ k <> [] /\ blen k < MAX_CONFIG_VALUE_SIZE) ks ->
  cst base h cfg m foot (fun x => T x \/ x = store) -> m fld = SList items -> hp_cell h store = Live (Buf d) -> blen d = MAX_CONFIG_VALUE_SIZE ->
  (load_list_loop ini sec key h cfg fld store ks = UB NullDeref /\ oomed h) \/
  exists rc h' foot', load_list_loop ini sec key h cfg fld store ks = Ok (rc, h') /\ ext base cfg h h' /\
    ((rc = (-1)%Z /\ oomed h /\ cst base h' cfg (ups m fld SDang) foot' T) \/
     (rc = 0%Z /\ cst base h' cfg (ups m fld (SList (items ++ List.concat (map (one_value ini sec key) ks)))) foot' T)).
Proof.
  intros ini sec key base cfg fld store T [IK IG] Hf Bs NTs S0. induction ks as [|k ks IH]; intros h m foot items d HK C Hm Cs Ld; cbn [load_list_loop].
  { right. destruct (cst_free_temp _ _ _ _ _ _ _ C Bs NTs) as (h1 & E1 & _ & X1 & _ & C1). rewrite E1. cbn [obind]. exists 0%Z, h1, foot. split; [reflexivity|]. split; [exact X1|]. right. split; [reflexivity|].
    eapply cst_ext; [exact C1|]. intros j. cbn [map List.concat]. rewrite app_nil_r. unfold ups. destruct (Nat.eqb_spec j fld) as [->|_]; auto. }
  inversion HK as [|? ? [Hk1 [Hk2 Hk3]] HK']; subst.
  erewrite write_buf; [|exact S0|exact Cs|lia]. cbn [obind].
  destruct (cst_write_temp _ _ _ _ _ _ store (Buf (k ++ [0] ++ skipn (S (List.length k)) d)) C (or_intror eq_refl) Bs) as [X1 C1].
  match type of C1 with cst _ ?x _ _ _ _ => set (h1 := x) in * end. set (ds := k ++ [0] ++ skipn (S (List.length k)) d) in *.
  assert (Cs1 : hp_cell h1 store = Live (Buf ds)) by apply put_same.
  assert (Lds : blen ds = MAX_CONFIG_VALUE_SIZE) by (unfold ds; rewrite written_len by lia; exact Ld).
  destruct (cst_alloc _ _ _ _ _ _ (zeros MAX_CONFIG_VALUE_SIZE) C1) as (v & h2 & E2 & Hn2 & X2 & Cv). rewrite E2.
  destruct Cv as [(-> & Oo & C2)|(V0 & Bv & Oo & Cv & NTv & Cx2 & C2)].
  { cbn [N.eqb]. right. destruct (cst_free_temp _ _ _ _ _ _ _ C2 Bs NTs) as (h3 & E3 & _ & X3 & _ & C3). rewrite E3. cbn [obind].
    destruct (cst_free_list _ _ _ _ _ _ fld items C3 Hf Hm) as (H & h4 & G & E4 & X4 & C4). rewrite G. cbn [obind]. rewrite E4. cbn [obind]. exists (-1)%Z, h4, (ups foot fld []).
    split; [reflexivity|]. split; [eapply ext_trans; [exact X1|]; eapply ext_trans; [exact X2|]; eapply ext_trans; eassumption|]. left. split; [reflexivity|]. split; [|exact C4].
    eapply oomed_ext; [exact X1|]. exists (hp_next h1). split; [lia|exact Oo]. }
  rewrite (proj2 (N.eqb_neq _ _) V0).
  assert (Vs : v <> store) by (intros ->; apply NTv; right; reflexivity).
  assert (Cs2 : hp_cell h2 store = Live (Buf ds)) by (rewrite Cx2 by congruence; exact Cs1).
  rewrite (read_string h2 store k (skipn (S (List.length k)) d) S0 Hk1 Cs2). cbn [obind].
  assert (Pb : 0 < INI_BUFFERSIZE) by (unfold INI_BUFFERSIZE; lia). destruct (IG sec k [] INI_BUFFERSIZE (Forall_nil _) Pb) as [Ht Lt]. set (t := ini_gets ini sec k [] INI_BUFFERSIZE) in *.
  assert (Lz : blen t < blen (repeat 0 (N.to_nat MAX_CONFIG_VALUE_SIZE))) by (rewrite zeros_len; unfold INI_BUFFERSIZE, MAX_CONFIG_VALUE_SIZE in *; lia).
  erewrite write_buf; [|exact V0|exact Cv|exact Lz]. cbn [obind].
  destruct (cst_write_temp _ _ _ _ _ _ v (Buf (t ++ [0] ++ skipn (S (List.length t)) (repeat 0 (N.to_nat MAX_CONFIG_VALUE_SIZE)))) C2 (or_intror eq_refl) Bv) as [X3 C3].
  match type of C3 with cst _ ?x _ _ _ _ => set (h3 := x) in * end. set (dv := t ++ [0] ++ skipn (S (List.length t)) (repeat 0 (N.to_nat MAX_CONFIG_VALUE_SIZE))) in *.
  assert (Cv3 : hp_cell h3 v = Live (Buf dv)) by apply put_same.
  assert (Cs3 : hp_cell h3 store = Live (Buf ds)) by (unfold h3; rewrite put_other by congruence; exact Cs2).
  rewrite (read_string h3 store k (skipn (S (List.length k)) d) S0 Hk1 Cs3). cbn [obind].
  rewrite (read_string h3 v t _ V0 Ht Cv3). cbn [obind].
  assert (X03 : ext base cfg h h3) by (eapply ext_trans; [exact X1|]; eapply ext_trans; eassumption).
  cbn [map List.concat]. unfold one_value at 1. fold t. destruct (beqb k key && negb (blen t =? 0)) eqn:Eb.
  - assert (Ll : blen t + 1 <= blen dv). { unfold dv. rewrite written_len by exact Lz. lia. }
    destruct (cst_push _ _ _ _ _ _ fld items v dv (blen t + 1) 0%Z C3 Hf Hm (or_intror eq_refl) Bv Cv3 Ll) as (H & G & [(O1 & h4 & E4 & X4 & C4)|[(O1 & O2 & E4)|(O1 & O2 & h4 & foot4 & E4 & X4 & Hn4 & CT4 & C4)]]).
    + rewrite G. cbn [obind]. rewrite E4. cbn [obind Z.ltb]. change ((-1 <? 0)%Z) with true. cbv iota. right.
      destruct (cst_free_temp _ _ _ _ _ _ _ C4 Bv) as (h5 & E5 & _ & X5 & _ & C5); [exact NTv|]. rewrite E5. cbn [obind].
      destruct (cst_free_temp _ _ _ _ _ _ _ C5 Bs NTs) as (h6 & E6 & _ & X6 & _ & C6). rewrite E6. cbn [obind].
      destruct (cst_free_list _ _ _ _ _ _ fld items C6 Hf Hm) as (H' & h7 & G' & E7 & X7 & C7). rewrite G'. cbn [obind]. rewrite E7. cbn [obind]. exists (-1)%Z, h7, (ups foot fld []).
      split; [reflexivity|]. split; [eapply ext_trans; [exact X03|]; eapply ext_trans; [exact X4|]; eapply ext_trans; [exact X5|]; eapply ext_trans; eassumption|]. left. split; [reflexivity|]. split; [|exact C7].
      eapply oomed_ext; [exact X03|]. exists (hp_next h3). split; [lia|exact O1].
    + rewrite G. cbn [obind]. rewrite E4. cbn [obind]. left. split; [reflexivity|]. eapply oomed_ext; [exact X03|]. exists (hp_next h3 + 1). split; [lia|exact O2].
    + rewrite G. cbn [obind]. rewrite E4. cbn [obind]. change ((0 <? 0)%Z) with false. cbv iota.
      destruct (cst_free_temp _ _ _ _ _ _ _ C4 Bv NTv) as (h5 & E5 & _ & X5 & Cx5 & C5). rewrite E5. cbn [obind].
      assert (X05 : ext base cfg h h5) by (eapply ext_trans; [exact X03|]; eapply ext_trans; eassumption).
      assert (Cs5 : hp_cell h5 store = Live (Buf ds)). { rewrite Cx5 by congruence. rewrite CT4; [exact Cs3|left; right; reflexivity|exact Bs]. }
      destruct (IH _ _ _ _ _ HK' C5 (ups_same _ _ _ _) Cs5 Lds) as [[EU OU]|(rc & h6 & foot6 & E6 & X6 & Rs)].
      * left. split; [exact EU|]. eapply oomed_ext; eassumption.
      * right. exists rc, h6, foot6. split; [exact E6|]. split; [eapply ext_trans; eassumption|]. destruct Rs as [(Rc & OU & C6)|(Rc & C6)]; [left|right]; (split; [exact Rc|]).
        -- split; [eapply oomed_ext; eassumption|]. eapply cst_ext; [exact C6|]. intros j. unfold ups. destruct (Nat.eqb j fld); reflexivity.
        -- eapply cst_ext; [exact C6|]. intros j. unfold ups. destruct (Nat.eqb j fld); [|reflexivity]. unfold dv. rewrite firstn_text. rewrite <- app_assoc. reflexivity.
  - destruct (cst_free_temp _ _ _ _ _ _ _ C3 Bv NTv) as (h5 & E5 & _ & X5 & Cx5 & C5). rewrite E5. cbn [obind].
    assert (X05 : ext base cfg h h5) by (eapply ext_trans; eassumption).
    assert (Cs5 : hp_cell h5 store = Live (Buf ds)) by (rewrite Cx5 by congruence; exact Cs3).
    destruct (IH _ _ _ _ _ HK' C5 Hm Cs5 Lds) as [[EU OU]|(rc & h6 & foot6 & E6 & X6 & Rs)].
    + left. split; [exact EU|]. eapply oomed_ext; eassumption.
    + right. exists rc, h6, foot6. split; [exact E6|]. split; [eapply ext_trans; eassumption|]. destruct Rs as [(Rc & OU & C6)|(Rc & C6)]; [left|right]; (split; [exact Rc|]).
      * split; [eapply oomed_ext; eassumption|exact C6].
      * cbn [app]. exact C6.
Qed.

Lemma values_of_file : forall ini sec key ks, List.concat (map (one_value ini sec key) ks) =
  match ini_gets ini sec key [] INI_BUFFERSIZE with [] => [] | t => repeat (t ++ [0], 0%Z) (count_occ bytes_dec ks key) end.
Proof.
  intros ini sec key. induction ks as [|k ks IH]; cbn [map List.concat count_occ]; [destruct (ini_gets ini sec key [] INI_BUFFERSIZE); reflexivity|].
  rewrite IH. unfold one_value. destruct (bytes_dec k key) as [->|Hne].
  - rewrite beqb_refl. destruct (ini_gets ini sec key [] INI_BUFFERSIZE) as [|c t] eqn:E; [reflexivity|].
    destruct (blen (c :: t) =? 0) eqn:Ez; [apply N.eqb_eq in Ez; unfold blen in Ez; cbn in Ez; lia|]. cbn [andb negb app repeat]. reflexivity.
  - rewrite (proj2 (beqb_neq _ _) Hne). cbn [andb app]. reflexivity.
Qed.

Lemma cst_init : forall base h cfg m foot (T : N -> Prop), cst base h cfg m foot T -> exists H h', init_array_list h = Ok (H, h') /\ hp_next h' = hp_next h + 1 /\ ext base cfg h h' /\
  ((H = 0 /\ hp_oom h (hp_next h) = true /\ (forall x, hp_cell h' x = hp_cell h x) /\ cst base h' cfg m foot T) \/
   (H <> 0 /\ base <= H /\ hp_oom h (hp_next h) = false /\ alist h' H [] [H] /\ ~ T H /\ (forall x, x <> H -> hp_cell h' x = hp_cell h x) /\ cst base h' cfg m foot (fun x => T x \/ x = H))).
Proof.
  intros base h cfg m foot T C. pose proof C as (O & B & B0 & _ & _ & T1). pose proof O as (W & Bn & Lv). destruct (init_alist h W) as (H & h' & E & W' & Hn & Ho & Cs). exists H, h'. split; [exact E|]. split; [exact Hn|].
  destruct Cs as [(-> & Oo & Cx)|(HH & H0 & Oo & AL & Cx)].
  - split; [split; [exact Ho|]; split; [lia|]; intros; apply Cx|]. left. split; [reflexivity|]. split; [exact Oo|]. split; [exact Cx|]. eapply cst_only; [exact C|exact W'|lia|exact Cx].
  - assert (Fr : hp_cell h H = Fresh) by (apply W; lia).
    assert (NL : ~ is_live h H) by (intros [y Hy]; congruence).
    split; [split; [exact Ho|]; split; [lia|]; intros; apply Cx; lia|]. right. split; [exact H0|]. split; [lia|]. split; [exact Oo|]. split; [exact AL|].
    assert (NT : ~ T H) by (intros Q; apply NL; eapply temp_live; [exact C|exact Q|lia]). split; [exact NT|]. split; [exact Cx|].
    eapply cst_step; [exact C| |apply Cx; lia| |].
    + split; [exact W'|]. split; [lia|]. intros a Ha. destruct (N.eq_dec a H) as [->|Hne].
      * split; [auto|]. intros _. eapply alist_live; [exact AL|left; reflexivity].
      * unfold is_live. rewrite Cx by exact Hne. etransitivity; [apply (Lv a Ha)|]. cbn beta. tauto.
    + intros i a Ha. assert (a <> H) by (intros ->; apply NL; eapply foot_live; eassumption). split; [apply Cx; assumption|]. intros [Q|Q]; [apply (proj2 (T1 i a Ha) Q)|contradiction].
    + intros a Ha. rewrite Cx; [exact Ha|]. congruence.
Qed.

Lemma null_foot : forall base h cfg m foot T i, cst base h cfg m foot T -> (i < cfg_fields)%nat -> m i = SNull -> get_field h cfg i = Ok (P 0) /\ foot i = [].
Proof. intros base h cfg m foot T i C Hi Hm. destruct (cst_field _ _ _ _ _ _ i C Hi) as (v & G & S). rewrite Hm in S. destruct S as [-> F]. auto. Qed.

Lemma list_load : forall ini sec key base h cfg m foot (T : N -> Prop) fld, ini_ok ini -> (fld < cfg_fields)%nat -> cst base h cfg m foot T -> m fld = SNull ->
  (load_config_value_list ini sec key h cfg fld = UB NullDeref /\ oomed h) \/
  exists rc h' foot', load_config_value_list ini sec key h cfg fld = Ok (rc, h') /\ ext base cfg h h' /\
    ((rc = (-1)%Z /\ oomed h /\ (cst base h' cfg m foot' T \/ cst base h' cfg (ups m fld SDang) foot' T)) \/
     (rc = 0%Z /\ cst base h' cfg (ups m fld (SList (list_of_file ini sec key))) foot' T)).
Proof.
  intros ini sec key base h cfg m foot T fld OK Hf C Hm. unfold load_config_value_list.
  destruct (null_foot _ _ _ _ _ _ _ C Hf Hm) as [_ F0].
  destruct (cst_set base h cfg m foot T T fld (P 0) SNull [] C Hf) as (h0 & E0 & _ & X0 & _ & C0).
  { split; reflexivity. } { intros a []. } { intros a _. rewrite F0. tauto. } { intros j a _ Ha Q. destruct C as (_ & _ & _ & _ & _ & T1). apply (proj2 (T1 j a Ha) Q). }
  rewrite E0. cbn [obind]. apply cst_ext with (m' := m) in C0; [|intros j; unfold ups; destruct (Nat.eqb_spec j fld) as [->|_]; congruence].
  destruct (cst_alloc _ _ _ _ _ _ (zeros MAX_CONFIG_VALUE_SIZE) C0) as (s & h1 & E1 & Hn1 & X1 & Cv). rewrite E1. assert (X01 : ext base cfg h h1) by (eapply ext_trans; eassumption).
  destruct Cv as [(-> & Oo & C1)|(S0 & Bs & Oo & Cs & NTs & Cx1 & C1)].
  { cbn [N.eqb]. right. exists (-1)%Z, h1, (ups foot fld []). split; [reflexivity|]. split; [exact X01|]. left. split; [reflexivity|]. split; [|left; exact C1]. eapply oomed_ext; [exact X0|]. exists (hp_next h0). split; [lia|exact Oo]. }
  rewrite (proj2 (N.eqb_neq _ _) S0). destruct (cst_init _ _ _ _ _ _ C1) as (H & h2 & E2 & Hn2 & X2 & Ci). rewrite E2. cbn [obind]. assert (X02 : ext base cfg h h2) by (eapply ext_trans; eassumption).
  destruct Ci as [(-> & O2 & Cx2 & C2)|(H0 & BH & O2 & AL & NTH & Cx2 & C2)].
  - destruct (cst_set base h2 cfg m (ups foot fld []) (fun x => T x \/ x = s) (fun x => T x \/ x = s) fld (P 0) SNull [] C2 Hf) as (h3 & E3 & _ & X3 & _ & C3).
    { split; reflexivity. } { intros a []. } { intros a _. rewrite ups_same. tauto. } { intros j a _ Ha Q. destruct C2 as (_ & _ & _ & _ & _ & T1). apply (proj2 (T1 j a Ha) Q). }
    rewrite E3. cbn [obind N.eqb]. destruct (cst_free_temp _ _ _ _ _ _ _ C3 Bs NTs) as (h4 & E4 & _ & X4 & _ & C4). rewrite E4. cbn [obind]. right. exists (-1)%Z, h4, (ups (ups foot fld []) fld []).
    split; [reflexivity|]. split; [eapply ext_trans; [exact X02|]; eapply ext_trans; eassumption|]. left. split; [reflexivity|]. split; [eapply oomed_ext; [exact X01|]; exists (hp_next h1); split; [lia|exact O2]|].
    left. eapply cst_ext; [exact C4|]. intros j. unfold ups. destruct (Nat.eqb_spec j fld) as [->|_]; congruence.
  - destruct (cst_set base h2 cfg m (ups foot fld []) (fun x => (T x \/ x = s) \/ x = H) (fun x => T x \/ x = s) fld (P H) (SList []) [H] C2 Hf) as (h3 & E3 & _ & X3 & Cx3 & C3).
    { exists H. split; [reflexivity|exact AL]. }
    { intros a [<-|[]]. split; [exact BH|]. split; [exact NTH|]. intros j _ Q. destruct C2 as (_ & _ & _ & _ & _ & T1). apply (proj2 (T1 j H Q)). right. reflexivity. }
    { intros a _. rewrite ups_same. cbn [In]. intuition. }
    { intros j a _ Ha Q. destruct C2 as (_ & _ & _ & _ & _ & T1). apply (proj2 (T1 j a Ha)). left. exact Q. }
    rewrite E3. cbn [obind]. rewrite (proj2 (N.eqb_neq _ _) H0). assert (X03 : ext base cfg h h3) by (eapply ext_trans; eassumption).
    assert (Cs3 : hp_cell h3 s = Live (zeros MAX_CONFIG_VALUE_SIZE)). { rewrite Cx3; [rewrite Cx2; [exact Cs|]|]. intros ->. apply NTH. right. reflexivity. destruct C as (_ & Q & _). lia. }
    destruct (list_loop ini sec key base cfg fld s T OK Hf Bs NTs S0 (ini_keys ini sec) h3 _ _ [] _ (proj1 OK sec) C3 (ups_same _ _ _ _) Cs3 (zeros_len _)) as [[EU OU]|(rc & h4 & foot4 & E4 & X4 & Rs)].
    + left. split; [exact EU|]. eapply oomed_ext; eassumption.
    + right. exists rc, h4, foot4. split; [exact E4|]. split; [eapply ext_trans; eassumption|]. destruct Rs as [(Rc & OU & C4)|(Rc & C4)]; [left|right]; (split; [exact Rc|]).
      * split; [eapply oomed_ext; eassumption|]. right. eapply cst_ext; [exact C4|]. intros j. unfold ups. destruct (Nat.eqb j fld); reflexivity.
      * eapply cst_ext; [exact C4|]. intros j. unfold ups. destruct (Nat.eqb j fld); [|reflexivity]. cbn [app]. rewrite values_of_file. reflexivity.
Qed.

(** *** Parts *)
Definition sfld (e : nat * bytes * bytes * N) : nat := fst (fst (fst e)).
Lemma load_strings_ok : forall ini sec base cfg (T : N -> Prop), ini_ok ini -> forall l h m foot, cst base h cfg m foot T ->
  NoDup (map sfld l) -> (forall fld key def size, In (fld, key, def, size) l -> (fld < cfg_fields)%nat /\ m fld = SNull /\ cstr_ok def /\ 0 < size) ->
  exists ok h' m' foot', load_strings ini sec h cfg l = Ok (ok, h') /\ ext base cfg h h' /\ cst base h' cfg m' foot' T /\
    (forall i, ~ In i (map sfld l) -> m' i = m i) /\
    ((ok = false /\ oomed h /\ forall i, In i (map sfld l) -> m' i = SNull \/ exists t, m' i = SStr t) \/
     (ok = true /\ forall fld key def size, In (fld, key, def, size) l -> m' fld = text_slot (ini_gets ini sec key def size))).
Proof.
  intros ini sec base cfg T OK. induction l as [|[[[fld key] def] size] l IH]; intros h m foot C ND Hl; cbn [load_strings].
  { exists true, h, m, foot. split; [reflexivity|]. split; [apply ext_refl|]. split; [exact C|]. split; [auto|]. right. split; [reflexivity|]. intros ? ? ? ? []. }
  cbn [map] in ND. change (sfld (fld, key, def, size)) with fld in ND. inversion ND as [|? ? Hni ND']; subst. destruct (Hl fld key def size (or_introl eq_refl)) as (Hf & Hm & Hd & Hs).
  destruct (load_string_step ini sec _ _ _ _ _ _ fld key def size C Hf Hm Hd Hs OK) as (ok & h1 & foot1 & E1 & X1 & Hn1 & Cs). rewrite E1. cbn [obind].
  destruct Cs as [(-> & Oo & C1)|(-> & Oo & C1)].
  { exists false, h1, m, foot1. split; [reflexivity|]. split; [exact X1|]. split; [exact C1|]. split; [auto|]. left. split; [reflexivity|]. split; [exists (hp_next h); split; [lia|exact Oo]|].
    intros i Hi. left. cbn [map In] in Hi. change (sfld (fld, key, def, size)) with fld in Hi. destruct Hi as [<-|Hi]; [exact Hm|]. apply in_map_iff in Hi. destruct Hi as ([[[f' k'] d'] s'] & <- & Hi). apply (Hl f' k' d' s'). right. exact Hi. }
  assert (Hne : forall f k d s, In (f, k, d, s) l -> f <> fld). { intros f k d s Hi ->. apply Hni. apply in_map_iff. exists (fld, k, d, s). split; [reflexivity|exact Hi]. }
  destruct (IH h1 _ foot1 C1 ND') as (ok & h2 & m2 & foot2 & E2 & X2 & C2 & Ho & Cs).
  { intros f k d s Hi. destruct (Hl f k d s (or_intror Hi)) as (Q1 & Q2 & Q3 & Q4). rewrite ups_other by (eapply Hne; exact Hi). auto. }
  exists ok, h2, m2, foot2. split; [exact E2|]. split; [eapply ext_trans; eassumption|]. split; [exact C2|]. split.
  { intros i Hi. cbn [map In] in Hi. change (sfld (fld, key, def, size)) with fld in Hi. rewrite Ho by tauto. apply ups_other. intros ->. tauto. }
  assert (Hmf : m2 fld = text_slot (ini_gets ini sec key def size)) by (rewrite Ho by exact Hni; apply ups_same).
  destruct Cs as [(-> & OU & Q)|(-> & Q)]; [left|right]; (split; [reflexivity|]).
  - split; [eapply oomed_ext; eassumption|]. intros i Hi. cbn [map In] in Hi. change (sfld (fld, key, def, size)) with fld in Hi. destruct Hi as [<-|Hi]; [|apply Q; exact Hi].
    rewrite Hmf. unfold text_slot. destruct (ini_gets ini sec key def size); [left; reflexivity|right; eexists; reflexivity].
  - intros f k d s [Hi|Hi]; [injection Hi as <- <- <- <-; exact Hmf|eapply Q; exact Hi].
Qed.

Lemma load_lists_ok : forall ini sec base cfg (T : N -> Prop), ini_ok ini -> forall l h m foot, cst base h cfg m foot T ->
  NoDup (map fst l) -> (forall fld, In fld (map fst l) -> (fld < cfg_fields)%nat /\ m fld = SNull) ->
  (load_lists ini sec h cfg l = UB NullDeref /\ oomed h) \/
  exists ok h' m' foot', load_lists ini sec h cfg l = Ok (ok, h') /\ ext base cfg h h' /\ cst base h' cfg m' foot' T /\
    (forall i, ~ In i (map fst l) -> m' i = m i) /\
    ((ok = false /\ oomed h /\ forall i, In i (map fst l) -> m' i = SNull \/ m' i = SDang \/ exists t, m' i = SList t) \/
     (ok = true /\ forall fld key, In (fld, key) l -> m' fld = SList (list_of_file ini sec key))).
Proof.
  intros ini sec base cfg T OK. induction l as [|[fld key] l IH]; intros h m foot C ND Hl; cbn [load_lists].
  { right. exists true, h, m, foot. split; [reflexivity|]. split; [apply ext_refl|]. split; [exact C|]. split; [auto|]. right. split; [reflexivity|]. intros ? ? []. }
  cbn [map fst] in ND. inversion ND as [|? ? Hni ND']; subst. destruct (Hl fld (or_introl eq_refl)) as (Hf & Hm).
  destruct (list_load ini sec key _ _ _ _ _ _ fld OK Hf C Hm) as [[EU OU]|(rc & h1 & foot1 & E1 & X1 & Rs)]; [rewrite EU; left; auto|]. rewrite E1. cbn [obind].
  destruct Rs as [(-> & OU & Cs)|(-> & C1)].
  { change ((-1 <? 0)%Z) with true. cbv iota. right.
    assert (Hn : forall i, In i (map fst l) -> i <> fld /\ m i = SNull). { intros i Hi. split; [intros ->; contradiction|]. apply (Hl i). right. exact Hi. }
    destruct Cs as [C1|C1].
    - exists false, h1, m, foot1. split; [reflexivity|]. split; [exact X1|]. split; [exact C1|]. split; [auto|]. left. split; [reflexivity|]. split; [exact OU|].
      intros i [<-|Hi]; left; [exact Hm|apply Hn; exact Hi].
    - exists false, h1, (ups m fld SDang), foot1. split; [reflexivity|]. split; [exact X1|]. split; [exact C1|]. split; [intros i Hi; apply ups_other; intros ->; apply Hi; left; reflexivity|]. left. split; [reflexivity|]. split; [exact OU|].
      intros i [<-|Hi]; [right; left; apply ups_same|]. left. destruct (Hn i Hi) as [Q1 Q2]. rewrite ups_other by exact Q1. exact Q2. }
  change ((0 <? 0)%Z) with false. cbv iota.
  destruct (IH h1 _ foot1 C1 ND') as [[EU OU]|(ok & h2 & m2 & foot2 & E2 & X2 & C2 & Ho & Cs)].
  { intros f Hi. destruct (Hl f (or_intror Hi)) as (Q1 & Q2). rewrite ups_other by (intros ->; contradiction). auto. }
  { left. split; [exact EU|]. eapply oomed_ext; eassumption. }
  right. exists ok, h2, m2, foot2. split; [exact E2|]. split; [eapply ext_trans; eassumption|]. split; [exact C2|].
  assert (Hmf : m2 fld = SList (list_of_file ini sec key)) by (rewrite Ho by exact Hni; apply ups_same).
  split. { intros i Hi. cbn [map In fst] in Hi. rewrite Ho by tauto. apply ups_other. intros ->. tauto. }
  destruct Cs as [(-> & OU & Q)|(-> & Q)]; [left|right]; (split; [reflexivity|]).
  - split; [eapply oomed_ext; eassumption|]. intros i [<-|Hi]; [right; right; eexists; exact Hmf|apply Q; exact Hi].
  - intros f k [Hi|Hi]; [injection Hi as <- <-; exact Hmf|eapply Q; exact Hi].
Qed.

Definition nulled (m : nat -> slot) (l : list nat) : nat -> slot := fun i => if in_dec Nat.eq_dec i l then SNull else m i.

Lemma free_strings_ok : forall base cfg (T : N -> Prop) l h m foot, cst base h cfg m foot T -> (forall i, In i l -> (i < cfg_fields)%nat /\ (m i = SNull \/ exists t, m i = SStr t)) ->
  exists h' foot', free_strings h cfg l = Ok h' /\ ext base cfg h h' /\ cst base h' cfg (nulled m l) foot' T.
Proof.
  intros base cfg T. induction l as [|i l IH]; intros h m foot C Hl; cbn [free_strings].
  { exists h, foot. split; [reflexivity|]. split; [apply ext_refl|]. exact C. }
  destruct (Hl i (or_introl eq_refl)) as [Hi Hm]. destruct (cst_field _ _ _ _ _ _ i C Hi) as (v & G & S).
  assert (NL : forall s m', (forall j, m' j = if Nat.eqb j i then s else m j) -> (s = SNull) -> forall j, In j l -> (j < cfg_fields)%nat /\ (m' j = SNull \/ exists t, m' j = SStr t)).
  { intros s m' Em Es j Hj. destruct (Hl j (or_intror Hj)) as [Q1 Q2]. split; [exact Q1|]. rewrite Em. destruct (Nat.eqb j i); [left; exact Es|exact Q2]. }
  assert (NE : forall m', (forall j, m' j = if Nat.eqb j i then SNull else m j) -> forall j, nulled m' l j = nulled m (i :: l) j).
  { intros m' Em j. unfold nulled. destruct (in_dec Nat.eq_dec j l) as [Q|Q]; destruct (in_dec Nat.eq_dec j (i :: l)) as [Q'|Q']; cbn [In] in Q'; try reflexivity; try tauto.
    - destruct Q' as [<-|Q']; [|contradiction]. rewrite Em, Nat.eqb_refl. reflexivity.
    - rewrite Em. destruct (Nat.eqb_spec j i) as [->|_]; [tauto|reflexivity]. }
  destruct Hm as [Hm|[t Hm]]; rewrite Hm in S.
  - destruct S as [-> F]. rewrite (get_ptr_of _ _ _ _ G). cbn [obind N.eqb].
    assert (Em : forall j, m j = if Nat.eqb j i then SNull else m j) by (intros j; destruct (Nat.eqb_spec j i) as [->|_]; congruence).
    destruct (IH h m foot C (NL SNull m Em eq_refl)) as (h' & foot' & E & X & C'). exists h', foot'. split; [exact E|]. split; [exact X|]. eapply cst_ext; [exact C'|apply NE; exact Em].
  - destruct S as (a & d & -> & A0 & F & Ca & Ct). rewrite (get_ptr_of _ _ _ _ G). cbn [obind]. rewrite (proj2 (N.eqb_neq _ _) A0). cbn [obind].
    pose proof C as (O & B & B0 & _ & D & T1). assert (Lv : is_live h a) by (eexists; exact Ca). destruct (T1 i a) as [Ba NTa]; [rewrite F; left; reflexivity|].
    destruct (free_live h a (proj1 O) Lv) as [E1 W1]. rewrite E1. cbn [obind].
    assert (X1 : ext base cfg h (put h a Freed)) by (split; [reflexivity|]; split; [cbn; lia|]; intros x Hx _; apply put_other; lia).
    assert (C1 : cst base (put h a Freed) cfg (ups m i SDang) (ups foot i []) T).
    { eapply cst_slot; [exact C|exact Hi|exact G| |apply put_other; lia| | | |intros x []].
      - eapply only_iff; [apply only_freed; [exact O|exact Lv]|]. intros x Hx. cbn beta. split.
        + intros [[Q|[j Q]] N]; [left; exact Q|]. right. right. exists j. split; [|exact Q]. intros ->. rewrite F in Q. destruct Q as [Q|[]]. congruence.
        + intros [Q|[[]|(j & Hj & Q)]]; (split; [|intros ->]).
          * left; exact Q. * contradiction. * right; exists j; exact Q. * apply Hj. eapply D; [exact Q|rewrite F; left; reflexivity].
      - intros j x Hj Hx. apply put_other. intros ->. apply Hj. eapply D; [exact Hx|rewrite F; left; reflexivity].
      - intros x Hx. destruct (N.eq_dec x a) as [->|Hne]; [apply put_same|rewrite put_other by exact Hne; exact Hx].
      - exists a. split; [reflexivity|]. split; [exact A0|]. split; [apply put_same|reflexivity]. }
    destruct (cst_set base (put h a Freed) cfg (ups m i SDang) (ups foot i []) T T i (P 0) SNull [] C1 Hi) as (h2 & E2 & _ & X2 & _ & C2).
    { split; reflexivity. } { intros x []. } { intros x _. rewrite ups_same. tauto. } { intros j x _ Hx Q. destruct C1 as (_ & _ & _ & _ & _ & Q1). apply (proj2 (Q1 j x Hx) Q). }
    rewrite E2. cbn [obind].
    assert (Em : forall j, ups (ups m i SDang) i SNull j = if Nat.eqb j i then SNull else m j) by (intros j; unfold ups; destruct (Nat.eqb j i); reflexivity).
    destruct (IH h2 _ _ C2 (NL SNull _ Em eq_refl)) as (h' & foot' & E & X & C'). exists h', foot'. split; [exact E|]. split; [eapply ext_trans; [exact X1|]; eapply ext_trans; eassumption|]. eapply cst_ext; [exact C'|apply NE; exact Em].
Qed.

Lemma free_null_list : forall h, free_array_list h 0 = Ok h.
Proof. intros h. reflexivity. Qed.
Lemma freed_field : forall h a i, a <> 0 -> hp_cell h a = Freed -> get_field h a i = UB UseAfterFree.
Proof. intros h a i A0 C. unfold get_field, load. rewrite (proj2 (N.eqb_neq _ _) A0), C. reflexivity. Qed.
Lemma free_dangling_list : forall h H, H <> 0 -> hp_cell h H = Freed -> free_array_list h H = UB UseAfterFree.
Proof.
  intros h H H0 C. unfold free_array_list, free_list. rewrite (proj2 (N.eqb_neq _ _) H0). cbn [free_list_loop].
  unfold dl_list_first, get_ptr. rewrite !(freed_field _ _ _ H0 C). reflexivity.
Qed.

Lemma nulled_cons : forall m m' i l, (forall j, m' j = if Nat.eqb j i then SNull else m j) -> forall j, nulled m' l j = nulled m (i :: l) j.
Proof.
  intros m m' i l Em j. unfold nulled. destruct (in_dec Nat.eq_dec j l) as [Q|Q]; destruct (in_dec Nat.eq_dec j (i :: l)) as [Q'|Q']; cbn [In] in Q'; try reflexivity; try tauto.
  - destruct Q' as [<-|Q']; [|contradiction]. rewrite Em, Nat.eqb_refl. reflexivity.
  - rewrite Em. destruct (Nat.eqb_spec j i) as [->|_]; [tauto|reflexivity].
Qed.

Lemma free_lists_ok : forall base cfg (T : N -> Prop) l h m foot, cst base h cfg m foot T ->
  (forall i, In i (map fst l) -> (i < cfg_fields)%nat /\ (m i = SNull \/ m i = SDang \/ exists t, m i = SList t)) ->
  (free_lists h cfg l = UB UseAfterFree /\ exists i, In i (map fst l) /\ m i = SDang) \/
  exists h' foot', free_lists h cfg l = Ok h' /\ ext base cfg h h' /\ cst base h' cfg (nulled m (map fst l)) foot' T.
Proof.
  intros base cfg T. induction l as [|[i key] l IH]; intros h m foot C Hl; cbn [free_lists].
  { right. exists h, foot. split; [reflexivity|]. split; [apply ext_refl|]. exact C. }
  destruct (Hl i (or_introl eq_refl)) as [Hi Hm]. destruct (cst_field _ _ _ _ _ _ i C Hi) as (v & G & S). cbn [map fst].
  assert (ST : exists p h1 m1 foot1, get_ptr h cfg i = Ok p /\ ((m i = SDang /\ free_array_list h p = UB UseAfterFree) \/
     (free_array_list h p = Ok h1 /\ ext base cfg h h1 /\ cst base h1 cfg m1 foot1 T /\ foot1 i = [] /\ forall j, j <> i -> m1 j = m j))).
  { destruct Hm as [Hm|[Hm|[t Hm]]].
    - rewrite Hm in S. destruct S as [-> F]. exists 0, h, m, foot. split; [apply get_ptr_of; exact G|]. right. split; [apply free_null_list|]. split; [apply ext_refl|]. auto.
    - rewrite Hm in S. destruct S as (H & -> & H0 & Cd & _). exists H, h, m, foot. split; [apply get_ptr_of; exact G|]. left. split; [exact Hm|]. apply free_dangling_list; assumption.
    - destruct (cst_free_list _ _ _ _ _ _ i t C Hi Hm) as (H & h1 & G1 & E1 & X1 & C1). exists H, h1, (ups m i SDang), (ups foot i []). split; [exact G1|]. right. split; [exact E1|]. split; [exact X1|]. split; [exact C1|]. split; [apply ups_same|]. intros j Hj. apply ups_other. exact Hj. }
  destruct ST as (p & h1 & m1 & foot1 & G1 & [(Hd & E1)|(E1 & X1 & C1 & F1 & M1)]); rewrite G1; cbn [obind]; rewrite E1; cbn [obind].
  { left. split; [reflexivity|]. exists i. split; [left; reflexivity|exact Hd]. }
  destruct (cst_set base h1 cfg m1 foot1 T T i (P 0) SNull [] C1 Hi) as (h2 & E2 & _ & X2 & _ & C2).
  { split; reflexivity. } { intros x []. } { intros x _. rewrite F1. tauto. } { intros j x _ Hx Q. destruct C1 as (_ & _ & _ & _ & _ & Q1). apply (proj2 (Q1 j x Hx) Q). }
  rewrite E2. cbn [obind].
  assert (Em : forall j, ups m1 i SNull j = if Nat.eqb j i then SNull else m j). { intros j. unfold ups. destruct (Nat.eqb_spec j i) as [->|Hne]; [reflexivity|]. apply M1. exact Hne. }
  destruct (IH h2 _ _ C2) as [(EU & j & Hj & Q)|(h3 & foot3 & E3 & X3 & C3)].
  { intros j Hj. destruct (Hl j (or_intror Hj)) as [Q1 Q2]. split; [exact Q1|]. rewrite Em. destruct (Nat.eqb j i); [left; reflexivity|exact Q2]. }
  - left. split; [exact EU|]. exists j. split; [right; exact Hj|]. rewrite Em in Q. destruct (Nat.eqb j i); [discriminate|exact Q].
  - right. exists h3, foot3. split; [exact E3|]. split; [eapply ext_trans; [exact X1|]; eapply ext_trans; eassumption|]. eapply cst_ext; [exact C3|]. apply nulled_cons. exact Em.
Qed.

Definition fields (p : part) : list nat := map sfld (pt_strings p) ++ map fst (pt_lists p).
Definition part_ok (p : part) : Prop :=
  NoDup (fields p) /\ (forall i, In i (fields p) -> (i < cfg_fields)%nat) /\ (forall i, In i (pt_release p) <-> In i (map sfld (pt_strings p))) /\
  Forall (fun e => cstr_ok (snd (fst e)) /\ 0 < snd e) (pt_strings p).
Lemma parts_ok : part_ok pledge_part /\ part_ok registrar_part /\ part_ok masa_part.
Proof.
  assert (H : forall p, (if list_eq_dec Nat.eq_dec (nodup Nat.eq_dec (fields p)) (fields p) then true else false) && forallb (fun i => Nat.ltb i cfg_fields) (fields p) &&
     forallb (fun i => if in_dec Nat.eq_dec i (map sfld (pt_strings p)) then true else false) (pt_release p) && forallb (fun i => if in_dec Nat.eq_dec i (pt_release p) then true else false) (map sfld (pt_strings p)) &&
     forallb (fun e => cstr_okb (snd (fst e)) && (0 <? snd e)) (pt_strings p) = true -> part_ok p).
  { intros p H. repeat (rewrite Bool.andb_true_iff in H). destruct H as ((((H1 & H2) & H3) & H4) & H5). split; [|split; [|split]].
    - destruct (list_eq_dec Nat.eq_dec (nodup Nat.eq_dec (fields p)) (fields p)) as [Q|Q]; [rewrite <- Q; apply NoDup_nodup|discriminate].
    - intros i Hi. rewrite forallb_forall in H2. apply Nat.ltb_lt. apply H2. exact Hi.
    - intros i. rewrite forallb_forall in H3, H4. split; intros Hi; [specialize (H3 i Hi)|specialize (H4 i Hi)]; destruct (in_dec Nat.eq_dec _ _); auto; discriminate.
    - apply Forall_forall. intros e He. rewrite forallb_forall in H5. specialize (H5 e He). apply Bool.andb_true_iff in H5. destruct H5 as [Q1 Q2]. split; [apply cstr_okb_ok; exact Q1|apply N.ltb_lt; exact Q2]. }
  split; [|split]; apply H; vm_compute; reflexivity.
Qed.

(** A part in good order: its strings are absent or texts, its lists absent or
    lists. *)
Definition tidy (p : part) (m : nat -> slot) : Prop :=
  (forall i, In i (map sfld (pt_strings p)) -> m i = SNull \/ exists t, m i = SStr t) /\
  (forall i, In i (map fst (pt_lists p)) -> m i = SNull \/ exists t, m i = SList t).

Lemma free_part_ok : forall p base cfg (T : N -> Prop) h m foot, part_ok p -> cst base h cfg m foot T ->
  (forall i, In i (map sfld (pt_strings p)) -> m i = SNull \/ exists t, m i = SStr t) ->
  (forall i, In i (map fst (pt_lists p)) -> m i = SNull \/ m i = SDang \/ exists t, m i = SList t) ->
  (free_part p h cfg = UB UseAfterFree /\ exists i, In i (map fst (pt_lists p)) /\ m i = SDang) \/
  exists h' foot', free_part p h cfg = Ok h' /\ ext base cfg h h' /\ cst base h' cfg (nulled m (fields p)) foot' T.
Proof.
  intros p base cfg T h m foot (ND & Lt & Rel & _) C HS HL. unfold free_part.
  destruct (free_strings_ok base cfg T (pt_release p) h m foot C) as (h1 & foot1 & E1 & X1 & C1).
  { intros i Hi. apply Rel in Hi. split; [apply Lt; apply in_or_app; left; exact Hi|apply HS; exact Hi]. }
  rewrite E1. cbn [obind].
  assert (Nn : forall i, In i (map fst (pt_lists p)) -> nulled m (pt_release p) i = m i).
  { intros i Hi. unfold nulled. destruct (in_dec Nat.eq_dec i (pt_release p)) as [Q|_]; [|reflexivity]. apply Rel in Q. exfalso. revert ND Q Hi. unfold fields. generalize (map sfld (pt_strings p)) (map fst (pt_lists p)). clear.
    induction l as [|x l IH]; intros l' ND Q Hi; [destruct Q|]. cbn [app] in ND. inversion ND as [|? ? Hn ND']; subst. destruct Q as [->|Q]; [apply Hn; apply in_or_app; right; exact Hi|eapply IH; eassumption]. }
  destruct (free_lists_ok base cfg T (pt_lists p) h1 _ foot1 C1) as [(EU & i & Hi & Q)|(h2 & foot2 & E2 & X2 & C2)].
  { intros i Hi. split; [apply Lt; apply in_or_app; right; exact Hi|]. rewrite Nn by exact Hi. apply HL. exact Hi. }
  - left. split; [exact EU|]. exists i. split; [exact Hi|]. rewrite <- Nn by exact Hi. exact Q.
  - right. exists h2, foot2. split; [exact E2|]. split; [eapply ext_trans; eassumption|]. eapply cst_ext; [exact C2|]. intros j. unfold nulled, fields.
    destruct (in_dec Nat.eq_dec j (map fst (pt_lists p))) as [Q1|Q1]; destruct (in_dec Nat.eq_dec j (pt_release p)) as [Q2|Q2]; destruct (in_dec Nat.eq_dec j (map sfld (pt_strings p) ++ map fst (pt_lists p))) as [Q3|Q3]; try reflexivity; exfalso; rewrite in_app_iff in Q3; rewrite Rel in Q2; tauto.
Qed.

Definition loaded (ini : ini) (p : part) (m : nat -> slot) : Prop :=
  (forall fld key def size, In (fld, key, def, size) (pt_strings p) -> m fld = text_slot (ini_gets ini (pt_name p) key def size)) /\
  (forall fld key, In (fld, key) (pt_lists p) -> m fld = SList (list_of_file ini (pt_name p) key)).

Lemma load_part_ok : forall p ini base cfg (T : N -> Prop) h m foot, part_ok p -> ini_ok ini -> cst base h cfg m foot T -> (forall i, In i (fields p) -> m i = SNull) ->
  (exists k, load_part p ini h cfg = UB k /\ (k = NullDeref \/ k = UseAfterFree) /\ oomed h) \/
  exists rc h' m' foot', load_part p ini h cfg = Ok (rc, h') /\ ext base cfg h h' /\ cst base h' cfg m' foot' T /\ (forall i, ~ In i (fields p) -> m' i = m i) /\
    ((rc = (-1)%Z /\ oomed h /\ forall i, In i (fields p) -> m' i = SNull) \/ (rc = 0%Z /\ loaded ini p m')).
Proof.
  intros p ini base cfg T h m foot PO OK C Hz. pose proof PO as (ND & Lt & Rel & Sz). unfold load_part.
  assert (NDS : NoDup (map sfld (pt_strings p)) /\ NoDup (map fst (pt_lists p)) /\ forall i, In i (map sfld (pt_strings p)) -> ~ In i (map fst (pt_lists p))).
  { revert ND. unfold fields. generalize (map sfld (pt_strings p)) (map fst (pt_lists p)). clear. induction l as [|x l IH]; intros l' ND; [split; [constructor|]; split; [exact ND|intros i []]|].
    cbn [app] in ND. inversion ND as [|? ? Hn ND']; subst. destruct (IH l' ND') as (A & B & D). split; [constructor; [intros Q; apply Hn; apply in_or_app; left; exact Q|exact A]|]. split; [exact B|]. intros i [->|Hi]; [intros Q; apply Hn; apply in_or_app; right; exact Q|apply D; exact Hi]. }
  destruct NDS as (NS & NL & Dj).
  destruct (load_strings_ok ini (pt_name p) base cfg T OK (pt_strings p) h m foot C NS) as (ok & h1 & m1 & foot1 & E1 & X1 & C1 & O1 & Cs).
  { intros fld key def size Hi. assert (In fld (map sfld (pt_strings p))) by (apply in_map_iff; exists (fld, key, def, size); split; [reflexivity|exact Hi]).
    split; [apply Lt; apply in_or_app; left; assumption|]. split; [apply Hz; apply in_or_app; left; assumption|]. rewrite Forall_forall in Sz. apply (Sz _ Hi). }
  rewrite E1. cbn [obind].
  assert (ZL : forall i, In i (map fst (pt_lists p)) -> m1 i = SNull). { intros i Hi. rewrite O1; [apply Hz; apply in_or_app; right; exact Hi|]. intros Q. apply (Dj i Q Hi). }
  assert (ON : forall m', (forall i, ~ In i (fields p) -> m' i = m i) -> forall i, ~ In i (fields p) -> nulled m' (fields p) i = m i).
  { intros m' Q i Hi. unfold nulled. destruct (in_dec Nat.eq_dec i (fields p)); [contradiction|]. apply Q. exact Hi. }
  assert (OZ : forall m' i, In i (fields p) -> nulled m' (fields p) i = SNull).
  { intros m' i Hi. unfold nulled. destruct (in_dec Nat.eq_dec i (fields p)); [reflexivity|contradiction]. }
  assert (O1' : forall i, ~ In i (fields p) -> m1 i = m i). { intros i Hi. apply O1. intros Q. apply Hi. apply in_or_app. left. exact Q. }
  destruct Cs as [(-> & OU & Hs)|(-> & Hs)]; cbn [negb].
  - destruct (free_part_ok p base cfg T h1 m1 foot1 PO C1) as [(_ & i & Hi & Q)|(h2 & foot2 & E2 & X2 & C2)]; [exact Hs|intros i Hi; left; apply ZL; exact Hi|rewrite ZL in Q by exact Hi; discriminate|].
    rewrite E2. cbn [obind]. right. exists (-1)%Z, h2, (nulled m1 (fields p)), foot2. split; [reflexivity|]. split; [eapply ext_trans; eassumption|]. split; [exact C2|]. split; [apply ON; exact O1'|]. left. split; [reflexivity|]. split; [exact OU|apply OZ].
  - destruct (load_lists_ok ini (pt_name p) base cfg T OK (pt_lists p) h1 m1 foot1 C1 NL) as [(EU & OU)|(ok & h2 & m2 & foot2 & E2 & X2 & C2 & O2 & Cs)].
    { intros fld Hi. split; [apply Lt; apply in_or_app; right; exact Hi|apply ZL; exact Hi]. }
    { left. exists NullDeref. rewrite EU. cbn [obind]. split; [reflexivity|]. split; [left; reflexivity|eapply oomed_ext; eassumption]. }
    rewrite E2. cbn [obind]. assert (X02 : ext base cfg h h2) by (eapply ext_trans; eassumption).
    assert (O2' : forall i, ~ In i (fields p) -> m2 i = m i). { intros i Hi. rewrite O2; [apply O1'; exact Hi|]. intros Q. apply Hi. apply in_or_app. right. exact Q. }
    assert (S2 : forall fld key def size, In (fld, key, def, size) (pt_strings p) -> m2 fld = text_slot (ini_gets ini (pt_name p) key def size)).
    { intros fld key def size Hi. rewrite O2; [eapply Hs; exact Hi|]. apply Dj. apply in_map_iff. exists (fld, key, def, size). split; [reflexivity|exact Hi]. }
    destruct Cs as [(-> & OU & Hl)|(-> & Hl)]; cbn [negb].
    + destruct (free_part_ok p base cfg T h2 m2 foot2 PO C2) as [(EU & _)|(h3 & foot3 & E3 & X3 & C3)]; [|exact Hl| |].
      { intros i Hi. apply in_map_iff in Hi. destruct Hi as ([[[f k] d] s] & <- & Hi). change (sfld (f, k, d, s)) with f. rewrite (S2 f k d s Hi). unfold text_slot. destruct (ini_gets ini (pt_name p) k d s); [left; reflexivity|right; eexists; reflexivity]. }
      * left. exists UseAfterFree. rewrite EU. cbn [obind]. split; [reflexivity|]. split; [right; reflexivity|eapply oomed_ext; [exact X1|exact OU]].
      * rewrite E3. cbn [obind]. right. exists (-1)%Z, h3, (nulled m2 (fields p)), foot3. split; [reflexivity|]. split; [eapply ext_trans; eassumption|]. split; [exact C3|]. split; [apply ON; exact O2'|]. left. split; [reflexivity|]. split; [eapply oomed_ext; [exact X1|exact OU]|apply OZ].
    + right. exists 0%Z, h2, m2, foot2. split; [reflexivity|]. split; [exact X02|]. split; [exact C2|]. split; [exact O2'|]. right. split; [reflexivity|]. split; [exact S2|exact Hl].
Qed.

(** *** The whole configuration *)
Lemma cst_start : forall h cfg, heap_wf h -> zero_cfg h cfg -> cst (hp_next h) h cfg (fun _ => SNull) (fun _ => []) (fun _ => False).
Proof.
  intros h cfg W Z. unfold zero_cfg in Z. split; [eapply only_iff; [apply only_init; exact W|]; intros a _; split; [tauto|intros [[]|[i []]]]|].
  assert (is_live h cfg) as Lv by (eexists; exact Z). split; [apply live_below; assumption|]. split; [eapply live_nz; eassumption|]. split; [|split].
  - eexists. split; [exact Z|]. split; [apply repeat_length|]. split; [reflexivity|]. intros i v Hv. split; [|reflexivity]. apply nth_error_In in Hv. eapply repeat_spec. exact Hv.
  - intros i j a [].
  - intros i a [].
Qed.

Lemma nth_ext : forall A (l l' : list A), (forall i, nth_error l i = nth_error l' i) -> l = l'.
Proof.
  induction l as [|x l IH]; intros [|y l'] H; [reflexivity|specialize (H O); discriminate|specialize (H O); discriminate|].
  pose proof (H O) as H0. injection H0 as <-. f_equal. apply IH. intros i. exact (H (S i)).
Qed.
Lemma nth_rep : forall A (x : A) n i, (i < n)%nat -> nth_error (repeat x n) i = Some x.
Proof. induction n; intros [|i] H; cbn; try lia; [reflexivity|]. apply IHn. lia. Qed.

Lemma cst_end : forall h0 h cfg m foot, zero_cfg h0 cfg -> cst (hp_next h0) h cfg m foot (fun _ => False) -> ext (hp_next h0) cfg h0 h -> (forall i, (i < cfg_fields)%nat -> m i = SNull) ->
  kept (hp_next h0) h0 h /\ no_leak (hp_next h0) h /\ heap_wf h.
Proof.
  intros h0 h cfg m foot Zc C (_ & _ & X) Hm. pose proof C as (O & B & B0 & (fs & Cc & L & Z & S) & D & T1).
  assert (Efs : fs = repeat (P 0) cfg_fields).
  { apply nth_ext. intros i. destruct (nth_error fs i) as [v|] eqn:E.
    - assert (Hi : (i < cfg_fields)%nat) by (rewrite <- L; apply nth_error_Some; congruence). pose proof (S i v E) as Q. rewrite (Hm i Hi) in Q. destruct Q as [-> _]. rewrite nth_rep by exact Hi. reflexivity.
    - symmetry. apply nth_error_None. rewrite repeat_length. apply nth_error_None in E. lia. }
  split; [|split; [|apply O]].
  - intros a Ha. destruct (N.eq_dec a cfg) as [->|Hne]; [|apply X; assumption]. rewrite Cc, Efs. symmetry. exact Zc.
  - intros a Ha Lv. apply O in Lv; [|exact Ha]. destruct Lv as [[]|[i Hi]].
    destruct (Nat.lt_ge_cases i cfg_fields) as [Hlt|Hge].
    + destruct (null_foot _ _ _ _ _ _ i C Hlt (Hm i Hlt)) as [_ F]. rewrite F in Hi. destruct Hi.
    + rewrite Z in Hi by exact Hge. destruct Hi.
Qed.

Lemma parts_disjoint : forall i, (In i (fields pledge_part) -> ~ In i (fields registrar_part) /\ ~ In i (fields masa_part)) /\ (In i (fields registrar_part) -> ~ In i (fields pledge_part) /\ ~ In i (fields masa_part)) /\
  (In i (fields masa_part) -> ~ In i (fields pledge_part) /\ ~ In i (fields registrar_part)).
Proof.
  assert (H : forall l l', forallb (fun i => if in_dec Nat.eq_dec i l' then false else true) l = true -> forall i, In i l -> ~ In i l').
  { intros l l' H i Hi. rewrite forallb_forall in H. specialize (H i Hi). destruct (in_dec Nat.eq_dec i l'); [discriminate|assumption]. }
  intros i. split; [|split]; intros Hi; (split; revert i Hi; apply H; vm_compute; reflexivity).
Qed.
Lemma parts_all : forall i, (i < cfg_fields)%nat -> In i (fields pledge_part) \/ In i (fields registrar_part) \/ In i (fields masa_part).
Proof.
  intros i Hi. assert (Q : In i (fields pledge_part ++ fields registrar_part ++ fields masa_part)); [|rewrite !in_app_iff in Q; exact Q].
  assert (H : forallb (fun i => if in_dec Nat.eq_dec i (fields pledge_part ++ fields registrar_part ++ fields masa_part) then true else false) (seq 0 cfg_fields) = true) by (vm_compute; reflexivity).
  rewrite forallb_forall in H. specialize (H i). destruct (in_dec Nat.eq_dec i _) as [Q|_]; [exact Q|]. discriminate H. apply in_seq. lia.
Qed.

Lemma tidy_ext : forall p m m', tidy p m -> (forall i, In i (fields p) -> m' i = m i) -> tidy p m'.
Proof.
  intros p m m' [A B] E. split; intros i Hi; rewrite E by (apply in_or_app; auto); auto.
Qed.
Lemma tidy_null : forall p m, (forall i, In i (fields p) -> m i = SNull) -> tidy p m.
Proof. intros p m H. split; intros i Hi; left; apply H; apply in_or_app; auto. Qed.
Lemma tidy_loaded : forall ini p m, loaded ini p m -> tidy p m.
Proof.
  intros ini p m [A B]. split; intros i Hi; apply in_map_iff in Hi.
  - destruct Hi as ([[[f k] d] s] & <- & Hi). change (sfld (f, k, d, s)) with f. rewrite (A f k d s Hi). unfold text_slot. destruct (ini_gets ini (pt_name p) k d s); [left; reflexivity|right; eexists; reflexivity].
  - destruct Hi as ([f k] & <- & Hi). right. eexists. apply (B f k Hi).
Qed.
Lemma free_tidy : forall p base cfg (T : N -> Prop) h m foot, part_ok p -> cst base h cfg m foot T -> tidy p m ->
  exists h' foot', free_part p h cfg = Ok h' /\ ext base cfg h h' /\ cst base h' cfg (nulled m (fields p)) foot' T.
Proof.
  intros p base cfg T h m foot PO C [A B]. destruct (free_part_ok p base cfg T h m foot PO C A) as [(_ & i & Hi & Q)|R].
  - intros i Hi. destruct (B i Hi) as [Q|Q]; auto.
  - destruct (B i Hi) as [Q'|[t Q']]; congruence.
  - exact R.
Qed.
Lemma nulled_out : forall m l i, ~ In i l -> nulled m l i = m i.
Proof. intros m l i H. unfold nulled. destruct (in_dec Nat.eq_dec i l); [contradiction|reflexivity]. Qed.
Lemma nulled_in : forall m l i, In i l -> nulled m l i = SNull.
Proof. intros m l i H. unfold nulled. destruct (in_dec Nat.eq_dec i l); [reflexivity|contradiction]. Qed.

Lemma free_config_ok : forall base cfg (T : N -> Prop) h m foot, cst base h cfg m foot T -> tidy pledge_part m -> tidy registrar_part m -> tidy masa_part m ->
  exists h' m' foot', free_config_content h cfg = Ok h' /\ ext base cfg h h' /\ cst base h' cfg m' foot' T /\ forall i, (i < cfg_fields)%nat -> m' i = SNull.
Proof.
  intros base cfg T h m foot C T1 T2 T3. destruct parts_ok as (P1 & P2 & P3). unfold free_config_content.
  destruct (free_tidy _ _ _ _ _ _ _ P1 C T1) as (h1 & f1 & E1 & X1 & C1). rewrite E1. cbn [obind].
  destruct (free_tidy _ _ _ _ _ _ _ P2 C1) as (h2 & f2 & E2 & X2 & C2). { eapply tidy_ext; [exact T2|]. intros i Hi. apply nulled_out. pose proof (parts_disjoint i); tauto. } rewrite E2. cbn [obind].
  destruct (free_tidy _ _ _ _ _ _ _ P3 C2) as (h3 & f3 & E3 & X3 & C3). { eapply tidy_ext; [exact T3|]. intros i Hi. destruct (parts_disjoint i) as (_ & _ & Q). destruct (Q Hi) as [Q1 Q2]. rewrite !nulled_out by assumption. reflexivity. }
  eexists h3, _, f3. split; [exact E3|]. split; [eapply ext_trans; [exact X1|]; eapply ext_trans; eassumption|]. split; [exact C3|]. intros i Hi. destruct (in_dec Nat.eq_dec i (fields masa_part)) as [Q|Q]; [apply nulled_in; exact Q|]. rewrite nulled_out by exact Q.
  destruct (in_dec Nat.eq_dec i (fields registrar_part)) as [Q'|Q']; [apply nulled_in; exact Q'|]. rewrite nulled_out by exact Q'. apply nulled_in. destruct (parts_all i Hi) as [R|[R|R]]; [exact R|contradiction|contradiction].
Qed.

Definition part_holds (m : ini) (p : part) (h : heap) (cfg : N) : Prop :=
  (forall fld key def size, In (fld, key, def, size) (pt_strings p) -> cfg_string h cfg fld = Ok (string_of_file m (pt_name p) key def size)) /\
  (forall fld key, In (fld, key) (pt_lists p) -> cfg_list h cfg fld = Ok (list_of_file m (pt_name p) key)).
Lemma parts_hold : forall m h cfg, part_holds m pledge_part h cfg -> part_holds m registrar_part h cfg -> part_holds m masa_part h cfg -> holds m h cfg.
Proof.
  intros m h cfg [A1 A2] [B1 B2] [C1 C2].
  assert (QS : forallb (fun x : bytes * nat * bytes * bytes * N => let '(sec, fld, key, def, size) := x in
      existsb (fun p => beqb sec (pt_name p) && existsb (fun y : nat * bytes * bytes * N => let '(f, k, d, s) := y in Nat.eqb f fld && beqb k key && beqb d def && (s =? size)) (pt_strings p)) [pledge_part; registrar_part; masa_part]) config_strings = true) by (vm_compute; reflexivity).
  assert (QL : forallb (fun x : bytes * nat * bytes => let '(sec, fld, key) := x in
      existsb (fun p => beqb sec (pt_name p) && existsb (fun y : nat * bytes => let '(f, k) := y in Nat.eqb f fld && beqb k key) (pt_lists p)) [pledge_part; registrar_part; masa_part]) config_lists = true) by (vm_compute; reflexivity).
  rewrite forallb_forall in QS, QL. split.
  - intros sec fld key def size Hi. apply QS in Hi. apply existsb_exists in Hi. destruct Hi as (p & Hp & Hi). apply Bool.andb_true_iff in Hi. destruct Hi as [Hs Hi]. apply beqb_eq in Hs. apply existsb_exists in Hi. destruct Hi as ([[[f k] d] s] & Hy & Hi).
    repeat rewrite Bool.andb_true_iff in Hi. destruct Hi as (((E1 & E2) & E3) & E4). apply Nat.eqb_eq in E1. apply beqb_eq in E2, E3. apply N.eqb_eq in E4. subst. destruct Hp as [<-|[<-|[<-|[]]]]; auto.
  - intros sec fld key Hi. apply QL in Hi. apply existsb_exists in Hi. destruct Hi as (p & Hp & Hi). apply Bool.andb_true_iff in Hi. destruct Hi as [Hs Hi]. apply beqb_eq in Hs. apply existsb_exists in Hi. destruct Hi as ([f k] & Hy & Hi).
    repeat rewrite Bool.andb_true_iff in Hi. destruct Hi as (E1 & E2). apply Nat.eqb_eq in E1. apply beqb_eq in E2. subst. destruct Hp as [<-|[<-|[<-|[]]]]; auto.
Qed.

Lemma loaded_holds : forall ini p base h cfg m foot T, part_ok p -> cst base h cfg m foot T -> loaded ini p m -> part_holds ini p h cfg.
Proof.
  intros ini p base h cfg m foot T (_ & Lt & _) C [A B]. split.
  - intros fld key def size Hi. assert (Hf : (fld < cfg_fields)%nat) by (apply Lt; apply in_or_app; left; apply in_map_iff; exists (fld, key, def, size); split; [reflexivity|exact Hi]).
    destruct (cst_field _ _ _ _ _ _ fld C Hf) as (v & G & S). rewrite (A _ _ _ _ Hi) in S. unfold cfg_string, string_of_file, text_slot in *.
    destruct (ini_gets ini (pt_name p) key def size) as [|c t]; cbn [slot_ok] in S.
    + destruct S as [-> _]. rewrite (get_ptr_of _ _ _ _ G). reflexivity.
    + destruct S as (a & d & -> & A0 & _ & Ca & Hin & Ct). rewrite (get_ptr_of _ _ _ _ G). cbn [obind]. rewrite (proj2 (N.eqb_neq _ _) A0). rewrite (heap_string_exact _ _ _ A0 Ca Hin), Ct. reflexivity.
  - intros fld key Hi. assert (Hf : (fld < cfg_fields)%nat) by (apply Lt; apply in_or_app; right; apply in_map_iff; exists (fld, key); split; [reflexivity|exact Hi]).
    destruct (cst_field _ _ _ _ _ _ fld C Hf) as (v & G & S). rewrite (B _ _ Hi) in S. destruct S as (H & -> & AL). unfold cfg_list. rewrite (get_ptr_of _ _ _ _ G). cbn [obind].
    apply (alist_items h H _ (foot fld)); [apply C|exact AL].
Qed.

Lemma loaded_ext : forall ini p m m', loaded ini p m -> (forall i, In i (fields p) -> m' i = m i) -> loaded ini p m'.
Proof.
  intros ini p m m' [A B] E. split.
  - intros fld key def size Hi. rewrite E; [apply (A _ _ _ _ Hi)|]. apply in_or_app. left. apply in_map_iff. exists (fld, key, def, size). split; [reflexivity|exact Hi].
  - intros fld key Hi. rewrite E; [apply (B _ _ Hi)|]. apply in_or_app. right. apply in_map_iff. exists (fld, key). split; [reflexivity|exact Hi].
Qed.

Theorem config_outcome : forall readable_file m h cfg, heap_wf h -> ini_ok m -> zero_cfg h cfg ->
  (exists h1 h2, load_brski_config readable_file m h cfg = Ok (0%Z, h1) /\ readable_file = true /\ holds m h1 cfg /\
     free_config_content h1 cfg = Ok h2 /\ kept (hp_next h) h h2 /\ no_leak (hp_next h) h2) \/
  (exists h1, load_brski_config readable_file m h cfg = Ok ((-1)%Z, h1) /\ (readable_file = false \/ oomed h) /\ kept (hp_next h) h h1 /\ no_leak (hp_next h) h1 /\ heap_wf h1) \/
  (exists k, load_brski_config readable_file m h cfg = UB k /\ (k = NullDeref \/ k = UseAfterFree) /\ readable_file = true /\ oomed h).
Proof.
  intros rd ini h cfg W OK Z. unfold load_brski_config. destruct rd; cbn [negb].
  2:{ right. left. exists h. split; [reflexivity|]. split; [left; reflexivity|]. split; [intros a _; reflexivity|]. split; [|exact W]. apply only_leak. apply only_init. exact W. }
  pose proof (cst_start h cfg W Z) as C0. destruct parts_ok as (P1 & P2 & P3).
  assert (FAIL : forall hf mf ff, cst (hp_next h) hf cfg mf ff (fun _ => False) -> ext (hp_next h) cfg h hf -> tidy pledge_part mf -> tidy registrar_part mf -> tidy masa_part mf -> oomed h ->
    exists h1, obind (free_config_content hf cfg) (fun h => Ok ((-1)%Z, h)) = Ok ((-1)%Z, h1) /\ (true = false \/ oomed h) /\ kept (hp_next h) h h1 /\ no_leak (hp_next h) h1 /\ heap_wf h1).
  { intros hf mf ff Cf Xf A1 A2 A3 Q. destruct (free_config_ok _ _ _ _ _ _ Cf A1 A2 A3) as (h' & m' & f' & E & X & C' & Hm). rewrite E. exists h'. split; [reflexivity|]. split; [right; exact Q|]. eapply cst_end; [exact Z|exact C'|eapply ext_trans; eassumption|exact Hm]. }
  destruct (load_part_ok pledge_part ini _ _ _ _ _ _ P1 OK C0) as [(k & E1 & Hk & Q1)|(rc & h1 & m1 & f1 & E1 & X1 & C1 & O1 & R1)]; [reflexivity| |]; rewrite E1; cbn [obind].
  { right. right. exists k. auto. }
  assert (Z2 : forall i, In i (fields registrar_part) -> m1 i = SNull) by (intros i Hi; apply O1; pose proof (parts_disjoint i); tauto).
  assert (Z3 : forall i, In i (fields masa_part) -> m1 i = SNull) by (intros i Hi; apply O1; pose proof (parts_disjoint i); tauto).
  destruct R1 as [(-> & Q1 & N1)|(-> & L1)].
  { change ((-1 <? 0)%Z) with true. cbv iota. right. left. eapply FAIL; [exact C1|exact X1|apply tidy_null; exact N1|apply tidy_null; exact Z2|apply tidy_null; exact Z3|exact Q1]. }
  change ((0 <? 0)%Z) with false. cbv iota.
  destruct (load_part_ok registrar_part ini _ _ _ _ _ _ P2 OK C1 Z2) as [(k & E2 & Hk & Q2)|(rc & h2 & m2 & f2 & E2 & X2 & C2 & O2 & R2)]; rewrite E2; cbn [obind].
  { right. right. exists k. split; [reflexivity|]. split; [exact Hk|]. split; [reflexivity|]. first [exact (oomed_ext _ _ _ _ X02 Q3)|exact (oomed_ext _ _ _ _ X1 Q2)]. }
  assert (X02 : ext (hp_next h) cfg h h2) by (eapply ext_trans; eassumption).
  assert (L12 : loaded ini pledge_part m2) by (eapply loaded_ext; [exact L1|]; intros i Hi; apply O2; pose proof (parts_disjoint i); tauto).
  assert (Z3' : forall i, In i (fields masa_part) -> m2 i = SNull). { intros i Hi. rewrite O2; [apply Z3; exact Hi|]. pose proof (parts_disjoint i); tauto. }
  destruct R2 as [(-> & Q2 & N2)|(-> & L2)].
  { change ((-1 <? 0)%Z) with true. cbv iota. right. left. eapply FAIL; [exact C2|exact X02|eapply tidy_loaded; exact L12|apply tidy_null; exact N2|apply tidy_null; exact Z3'|first [exact (oomed_ext _ _ _ _ X02 Q3)|exact (oomed_ext _ _ _ _ X1 Q2)]]. }
  change ((0 <? 0)%Z) with false. cbv iota.
  destruct (load_part_ok masa_part ini _ _ _ _ _ _ P3 OK C2 Z3') as [(k & E3 & Hk & Q3)|(rc & h3 & m3 & f3 & E3 & X3 & C3 & O3 & R3)]; rewrite E3; cbn [obind].
  { right. right. exists k. split; [reflexivity|]. split; [exact Hk|]. split; [reflexivity|]. first [exact (oomed_ext _ _ _ _ X02 Q3)|exact (oomed_ext _ _ _ _ X1 Q2)]. }
  assert (X03 : ext (hp_next h) cfg h h3) by (eapply ext_trans; eassumption).
  assert (L13 : loaded ini pledge_part m3) by (eapply loaded_ext; [exact L12|]; intros i Hi; apply O3; pose proof (parts_disjoint i); tauto).
  assert (L23 : loaded ini registrar_part m3) by (eapply loaded_ext; [exact L2|]; intros i Hi; apply O3; pose proof (parts_disjoint i); tauto).
  destruct R3 as [(-> & Q3 & N3)|(-> & L3)].
  { change ((-1 <? 0)%Z) with true. cbv iota. right. left. eapply FAIL; [exact C3|exact X03|eapply tidy_loaded; exact L13|eapply tidy_loaded; exact L23|apply tidy_null; exact N3|first [exact (oomed_ext _ _ _ _ X02 Q3)|exact (oomed_ext _ _ _ _ X1 Q2)]]. }
  change ((0 <? 0)%Z) with false. cbv iota. left.
  destruct (free_config_ok _ _ _ _ _ _ C3 (tidy_loaded _ _ _ L13) (tidy_loaded _ _ _ L23) (tidy_loaded _ _ _ L3)) as (h4 & m4 & f4 & E4 & X4 & C4 & N4).
  exists h3, h4. split; [reflexivity|]. split; [reflexivity|]. split; [apply parts_hold; eapply loaded_holds; eassumption|]. split; [exact E4|].
  destruct (cst_end h h4 cfg m4 f4 Z C4 (ext_trans _ _ _ _ _ X03 X4) N4) as (K1 & K2 & _). auto.
Qed.

Lemma free_zero_config : forall h cfg, heap_wf h -> zero_cfg h cfg -> exists h', free_config_content h cfg = Ok h' /\ kept (hp_next h) h h' /\ no_leak (hp_next h) h'.
Proof.
  intros h cfg W Z. pose proof (cst_start h cfg W Z) as C0. destruct (free_config_ok _ _ _ _ _ _ C0) as (h' & m' & f' & E & X & C' & Hm); try (apply tidy_null; reflexivity).
  exists h'. split; [exact E|]. destruct (cst_end _ _ _ _ _ Z C' X Hm) as (A & B & _). auto.
Qed.

(** An allocation failure among the strings. *)
Lemma strings_fail : forall ini sec base cfg (T : N -> Prop), ini_ok ini -> forall l h m foot a, cst base h cfg m foot T ->
  NoDup (map sfld l) -> (forall fld key def size, In (fld, key, def, size) l -> (fld < cfg_fields)%nat /\ m fld = SNull /\ cstr_ok def /\ 0 < size) ->
  hp_next h <= a < hp_next h + N.of_nat (List.length l) -> hp_oom h a = true -> exists h', load_strings ini sec h cfg l = Ok (false, h').
Proof.
  intros ini sec base cfg T OK. induction l as [|[[[fld key] def] size] l IH]; intros h m foot a C ND Hl Ha Oa; cbn [load_strings List.length] in *; [lia|].
  cbn [map] in ND. change (sfld (fld, key, def, size)) with fld in ND. inversion ND as [|? ? Hni ND']; subst. destruct (Hl fld key def size (or_introl eq_refl)) as (Hf & Hm & Hd & Hs).
  destruct (load_string_step ini sec _ _ _ _ _ _ fld key def size C Hf Hm Hd Hs OK) as (ok & h1 & foot1 & E1 & X1 & Hn1 & Cs). rewrite E1. cbn [obind].
  destruct Cs as [(-> & Oo & C1)|(-> & Oo & C1)]; [exists h1; reflexivity|].
  assert (a <> hp_next h) by congruence. destruct X1 as (Ho & _ & _). eapply (IH h1 _ foot1 a C1 ND'); [|lia|rewrite Ho; exact Oa].
  intros f k d s Hi. destruct (Hl f k d s (or_intror Hi)) as (Q1 & Q2 & Q3 & Q4). rewrite ups_other; [auto|]. intros ->. apply Hni. apply in_map_iff. exists (fld, k, d, s). split; [reflexivity|exact Hi].
Qed.

Lemma part_strings_fail : forall p ini h cfg a, In p [pledge_part; registrar_part; masa_part] -> heap_wf h -> ini_ok ini -> zero_cfg h cfg ->
  hp_next h <= a < hp_next h + N.of_nat (List.length (pt_strings p)) -> hp_oom h a = true ->
  exists h', load_part p ini h cfg = Ok ((-1)%Z, h') /\ kept (hp_next h) h h' /\ no_leak (hp_next h) h'.
Proof.
  intros p ini h cfg a Hp W OK Z Ha Oa. assert (PO : part_ok p) by (destruct parts_ok as (P1 & P2 & P3); destruct Hp as [<-|[<-|[<-|[]]]]; assumption).
  pose proof (cst_start h cfg W Z) as C0. pose proof PO as (ND & Lt & Rel & Sz).
  assert (NS : NoDup (map sfld (pt_strings p))). { revert ND. unfold fields. generalize (map fst (pt_lists p)). generalize (map sfld (pt_strings p)). clear. induction l as [|x l IH]; intros l' ND; [constructor|]. cbn [app] in ND. inversion ND as [|? ? Hn ND']; subst. constructor; [intros Q; apply Hn; apply in_or_app; left; exact Q|eapply IH; exact ND']. }
  assert (HS : forall fld key def size, In (fld, key, def, size) (pt_strings p) -> (fld < cfg_fields)%nat /\ (fun _ : nat => SNull) fld = SNull /\ cstr_ok def /\ 0 < size).
  { intros fld key def size Hi. split; [apply Lt; apply in_or_app; left; apply in_map_iff; exists (fld, key, def, size); split; [reflexivity|exact Hi]|]. split; [reflexivity|]. rewrite Forall_forall in Sz. apply (Sz _ Hi). }
  destruct (strings_fail ini (pt_name p) _ _ _ OK (pt_strings p) h _ _ a C0 NS HS Ha Oa) as (h1 & E1).
  destruct (load_strings_ok ini (pt_name p) _ _ _ OK (pt_strings p) h _ _ C0 NS HS) as (ok & h1' & m1 & f1 & E1' & X1 & C1 & O1 & Cs). rewrite E1 in E1'. injection E1' as <- <-.
  destruct Cs as [(_ & _ & Hs)|(Q & _)]; [|discriminate]. unfold load_part. rewrite E1. cbn [obind negb].
  assert (TD : tidy p m1). { split; [exact Hs|]. intros i Hi. destruct (in_dec Nat.eq_dec i (map sfld (pt_strings p))) as [Q|Q]; [exfalso|left; apply O1; exact Q].
    revert ND Q Hi. unfold fields. generalize (map sfld (pt_strings p)) (map fst (pt_lists p)). clear. induction l as [|x l IH]; intros l' ND Q Hi; [destruct Q|]. cbn [app] in ND. inversion ND as [|? ? Hn ND']; subst. destruct Q as [->|Q]; [apply Hn; apply in_or_app; right; exact Hi|eapply IH; eassumption]. }
  destruct (free_tidy _ _ _ _ _ _ _ PO C1 TD) as (h2 & f2 & E2 & X2 & C2). rewrite E2. cbn [obind]. exists h2. split; [reflexivity|].
  destruct (cst_end h h2 cfg _ f2 Z C2 (ext_trans _ _ _ _ _ X1 X2)) as (K1 & K2 & _); [|auto].
  intros i Hi. destruct (in_dec Nat.eq_dec i (fields p)) as [Q|Q]; [apply nulled_in; exact Q|]. rewrite nulled_out by exact Q. apply O1. intros Q'. apply Q. apply in_or_app. left. exact Q'.
Qed.
