(** Reasoning about code that holds a set of blocks. *)
From Coq Require Import Permutation.
From Verif Require Import Base PBase MOs MHeap MArray SHeap SArray PHeap PArray PBlocks PKlist POwn SSerialHeap.
Open Scope N_scope.

(** The live blocks from [base] on are exactly those of [L]. *)
Definition hold (base : N) (h : heap) (L : list N) : Prop :=
  heap_wf h /\ base <= hp_next h /\ NoDup L /\ (forall a, In a L -> base <= a) /\ forall a, base <= a -> (is_live h a <-> In a L).

Lemma hold_wf : forall base h L, hold base h L -> heap_wf h.
Proof. intros base h L (W & _). exact W. Qed.
Lemma hold_init : forall h, heap_wf h -> hold (hp_next h) h [].
Proof.
  intros h W. split; [exact W|]. split; [lia|]. split; [constructor|]. split; [intros a []|]. intros a Ha. split; [|intros []].
  intros Hl. pose proof (live_below _ _ W Hl). lia.
Qed.
Lemma hold_none : forall base h, hold base h [] -> no_leak base h.
Proof. intros base h (_ & _ & _ & _ & L) a Ha Hl. apply (L a Ha) in Hl. destruct Hl. Qed.
Lemma hold_perm : forall base h L L', Permutation L L' -> hold base h L -> hold base h L'.
Proof.
  intros base h L L' P (W & B & D & G & V). split; [exact W|]. split; [exact B|]. split; [eapply Permutation_NoDup; eassumption|].
  assert (I : forall a, In a L <-> In a L') by (intros a; split; apply Permutation_in; [exact P|apply Permutation_sym; exact P]).
  split; [intros a Ha; apply G; apply I; exact Ha|]. intros a Ha. rewrite (V a Ha). apply I.
Qed.
Lemma hold_in : forall base h L a, hold base h L -> In a L -> is_live h a /\ a <> 0 /\ a < hp_next h /\ base <= a.
Proof.
  intros base h L a (W & B & D & G & V) Ha. assert (Q : is_live h a) by (apply V; [apply G; exact Ha|exact Ha]).
  split; [exact Q|]. split; [eapply live_nz; eassumption|]. split; [apply live_below; assumption|apply G; exact Ha].
Qed.
Lemma hold_same : forall base h h' L, hold base h L -> heap_wf h' -> base <= hp_next h' -> (forall a, base <= a -> hp_cell h' a = hp_cell h a) -> hold base h' L.
Proof.
  intros base h h' L (W & B & D & G & V) W' B' E. split; [exact W'|]. split; [exact B'|]. split; [exact D|]. split; [exact G|].
  intros a Ha. unfold is_live. rewrite (E a Ha). apply V. exact Ha.
Qed.

Lemma hold_alloc : forall base h L b, hold base h L -> exists a h', alloc h b = (a, h') /\ ext h h' /\ hp_next h' = hp_next h + 1 /\
  ((a = 0 /\ hp_oom h (hp_next h) = true /\ (forall x, hp_cell h' x = hp_cell h x) /\ hold base h' L) \/
   (a = hp_next h /\ a <> 0 /\ hp_oom h (hp_next h) = false /\ hp_cell h' a = Live b /\ (forall x, x <> a -> hp_cell h' x = hp_cell h x) /\ hold base h' (a :: L))).
Proof.
  intros base h L b H. pose proof H as (W & B & D & G & V). destruct (alloc_cases h b W) as (a & h' & E & W' & Hn & Ho & C). exists a, h'. split; [exact E|].
  destruct C as [(A & Oo & Cx)|(A & A0 & Oo & Ca & Cf & Cx)].
  - split; [split; [exact W'|]; split; [lia|]; split; [intros x _; apply Cx|exact Ho]|]. split; [exact Hn|]. left. split; [exact A|]. split; [exact Oo|]. split; [exact Cx|]. eapply hold_same; [exact H|exact W'|lia|auto].
  - split; [split; [exact W'|]; split; [lia|]; split; [intros x Hx; apply Cx; lia|exact Ho]|]. split; [exact Hn|]. right. split; [exact A|]. split; [exact A0|]. split; [exact Oo|]. split; [exact Ca|]. split; [exact Cx|].
    split; [exact W'|]. split; [lia|]. split; [|split].
    + constructor; [|exact D]. intros Q. destruct (hold_in _ _ _ _ H Q) as (_ & _ & X & _). lia.
    + intros x [<-|Hx]; [lia|apply G; exact Hx].
    + intros x Hx. cbn [In]. unfold is_live. destruct (N.eq_dec x a) as [->|Hne].
      * rewrite Ca. split; [auto|]. intros _. eexists. reflexivity.
      * rewrite (Cx x Hne). fold (is_live h x). rewrite (V x Hx). split; [auto|intros [Q|Q]; [congruence|exact Q]].
Qed.

Lemma hold_free : forall base h a L, hold base h (a :: L) -> sys_free h a = Ok (put h a Freed) /\ hold base (put h a Freed) L.
Proof.
  intros base h a L H. pose proof H as (W & B & D & G & V). destruct (hold_in _ _ _ a H (or_introl eq_refl)) as (Lv & A0 & _ & Ab).
  destruct (free_live h a W Lv) as [E W']. split; [exact E|]. apply NoDup_cons_iff in D. destruct D as [D1 D2].
  split; [exact W'|]. split; [exact B|]. split; [exact D2|]. split; [intros x Hx; apply G; right; exact Hx|].
  intros x Hx. unfold is_live. destruct (N.eq_dec x a) as [->|Hne].
  - rewrite put_same. split; [intros [b Hb]; discriminate|contradiction].
  - rewrite put_other by exact Hne. fold (is_live h x). rewrite (V x Hx). cbn [In]. split; [intros [Q|Q]; [congruence|exact Q]|auto].
Qed.

Lemma hold_put : forall base h L a b, hold base h L -> In a L -> hold base (put h a (Live b)) L.
Proof.
  intros base h L a b H Ha. pose proof H as (W & B & D & G & V). destruct (hold_in _ _ _ a H Ha) as ([c Hc] & A0 & _ & Ab).
  split; [eapply wf_write; eauto|]. split; [exact B|]. split; [exact D|]. split; [exact G|]. intros x Hx. unfold is_live. destruct (N.eq_dec x a) as [->|Hne].
  - rewrite put_same. split; [intros _; exact Ha|]. intros _. eexists. reflexivity.
  - rewrite put_other by exact Hne. apply V. exact Hx.
Qed.

Lemma hold_released : forall base h F L h', hold base h (F ++ L) -> released h h' F -> heap_wf h' -> hp_next h' = hp_next h -> hold base h' L.
Proof.
  intros base h F L h' (W & B & D & G & V) [R1 R2] W' Hn. split; [exact W'|]. split; [lia|]. split; [eapply NoDup_app_remove_l'; exact D|].
  split; [intros a Ha; apply G; apply in_or_app; right; exact Ha|]. intros a Ha. destruct (in_dec N.eq_dec a F) as [Q|Q].
  - destruct (R1 a Q) as [_ C]. split; [intros [b Hb]; congruence|]. intros X. exfalso. exact (disjoint_of_NoDup _ _ D a Q X).
  - unfold is_live. rewrite (R2 a Q). fold (is_live h a). rewrite (V a Ha), in_app_iff. tauto.
Qed.

(** What a later piece of code acquires adds to what is held. *)
Lemma hold_grow : forall base h L h' L', hold base h L -> ext h h' -> hold (hp_next h) h' L' -> hold base h' (L' ++ L).
Proof.
  intros base h L h' L' H E H'. pose proof H as (W & B & D & G & V). pose proof E as (W' & Hn & K & Oo). pose proof H' as (_ & _ & D' & G' & V').
  assert (Low : forall a, In a L -> a < hp_next h) by (intros a Ha; apply (hold_in _ _ _ _ H Ha)).
  split; [exact W'|]. split; [lia|]. split; [|split].
  - apply disjoint_app; [exact D'|exact D|]. intros a Ha Q. apply G' in Ha. apply Low in Q. lia.
  - intros a Ha. apply in_app_or in Ha. destruct Ha as [Ha|Ha]; [apply G' in Ha; lia|apply G; exact Ha].
  - intros a Ha. rewrite in_app_iff. destruct (N.lt_ge_cases a (hp_next h)) as [Q|Q].
    + unfold is_live. rewrite (K a Q). fold (is_live h a). rewrite (V a Ha). split; [auto|]. intros [X|X]; [apply G' in X; lia|exact X].
    + rewrite (V' a Q). split; [auto|]. intros [X|X]; [exact X|]. apply Low in X. lia.
Qed.

(** *** Refused allocations *)
Lemma refused_here : forall h h', hp_oom h (hp_next h) = true -> hp_next h < hp_next h' -> refused h h'.
Proof. intros h h' O Hn. exists (hp_next h). split; [lia|exact O]. Qed.
Lemma refused_later : forall h h1 h2, refused h h1 -> hp_next h1 <= hp_next h2 -> refused h h2.
Proof. intros h h1 h2 (a & Ha & O) Hn. exists a. split; [lia|exact O]. Qed.
Lemma refused_before : forall h h1 h2, hp_next h <= hp_next h1 -> hp_oom h1 = hp_oom h -> refused h1 h2 -> refused h h2.
Proof. intros h h1 h2 Hn Ho (a & Ha & O). exists a. rewrite <- Ho. split; [lia|exact O]. Qed.
Lemma refused_starved : forall h h', refused h h' -> starved h.
Proof. intros h h' (a & Ha & O). exists a. split; [lia|exact O]. Qed.
Lemma starved_before : forall h h1, hp_next h <= hp_next h1 -> hp_oom h1 = hp_oom h -> starved h1 -> starved h.
Proof. intros h h1 Hn Ho (a & Ha & O). exists a. rewrite <- Ho. split; [lia|exact O]. Qed.
Lemma plenty_not_starved : forall h, plenty h -> ~ starved h.
Proof. intros h PL (a & _ & O). rewrite PL in O. discriminate. Qed.
Lemma starved_at : forall h a, hp_next h <= a -> hp_oom h a = true -> starved h.
Proof. intros h a Ha O. exists a. auto. Qed.

(** A function that returns a new block with the text [t], or NULL. *)
Definition gives (h : heap) (r : outcome (N * heap)) (t : option bytes) : Prop :=
  match r with
  | UB k => k = NullDeref /\ starved h
  | Ok (p, h') => ext h h' /\
      ((p = 0 /\ hold (hp_next h) h' [] /\ (t = None \/ refused h h')) \/
       (exists s, t = Some s /\ hp_cell h' p = Live (Buf (s ++ [0])) /\ hold (hp_next h) h' [p]))
  end.

Lemma gives_spec : forall h p h' t, gives h (Ok (p, h')) t -> new_string h t p h'.
Proof.
  intros h p h' t [(_ & _ & K & _) [(-> & H & Q)|(s & -> & C & H)]]; (split; [exact K|]).
  - left. split; [reflexivity|]. split; [exact Q|]. apply hold_none. exact H.
  - right. exists s. split; [reflexivity|]. destruct (hold_in _ _ _ p H (or_introl eq_refl)) as (_ & P0 & _). split; [exact P0|]. split; [exact C|].
    destruct H as (_ & _ & _ & _ & V). intros a Ha. rewrite (V a Ha). cbn [In]. split; [intros [Q|[]]; auto|auto].
Qed.

(** Code that continues after such a function. *)
Lemma gives_after : forall h h1 r t, ext h h1 -> hold (hp_next h) h1 [] -> gives h1 r t -> gives h r t.
Proof.
  intros h h1 r t E H1 G. pose proof E as (W1 & Hn & K & Ho). destruct r as [[p h']|k]; cbn [gives] in *.
  - destruct G as [E' G]. split; [eapply ext_trans; eassumption|]. destruct G as [(P0 & H & Q)|(s & Et & C & H)].
    + left. split; [exact P0|]. split; [exact (hold_grow _ _ _ _ _ H1 E' H)|]. destruct Q as [Q|Q]; [auto|]. right. eapply refused_before; eassumption.
    + right. exists s. split; [exact Et|]. split; [exact C|]. exact (hold_grow _ _ _ _ _ H1 E' H).
  - destruct G as [-> G]. split; [reflexivity|]. eapply starved_before; eassumption.
Qed.

(** From [h] to [h']: older memory is untouched. *)
Lemma ext_put : forall base h a c b, base <= a -> a < hp_next h -> a <> 0 -> hp_cell h a = Live b -> heap_wf h -> forall h0, ext h0 h -> hp_next h0 = base -> ext h0 (put h a c).
Proof.
  intros base h a c b Ha Hb A0 C W h0 (W0 & Hn & K & Ho) Eb. split; [eapply wf_write; eauto|]. split; [exact Hn|]. split; [|exact Ho].
  intros x Hx. rewrite put_other by lia. apply K. exact Hx.
Qed.
Lemma ext_put_held : forall h0 h L a c, ext h0 h -> hold (hp_next h0) h L -> In a L -> ext h0 (put h a c).
Proof.
  intros h0 h L a c E H Ha. destruct (hold_in _ _ _ a H Ha) as ([b Hb] & A0 & Al & Ab). eapply ext_put; [exact Ab|exact Al|exact A0|exact Hb|eapply hold_wf; exact H|exact E|reflexivity].
Qed.
Lemma ext_released : forall h0 h h' F, ext h0 h -> (forall a, In a F -> hp_next h0 <= a) -> released h h' F -> heap_wf h' -> hp_next h' = hp_next h -> hp_oom h' = hp_oom h -> ext h0 h'.
Proof.
  intros h0 h h' F (W0 & Hn & K & Ho) G [R1 R2] W' Hn' Ho'. split; [exact W'|]. split; [lia|]. split; [|congruence].
  intros x Hx. rewrite R2; [apply K; exact Hx|]. intros Q. apply G in Q. lia.
Qed.
