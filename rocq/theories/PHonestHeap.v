(** Parties whose trusted peers use this library lose no memory. *)
From Coq Require Import Permutation ZifyBool ZifyNat ZifyN.
From Verif Require Import Base PBase MOs MBase64 MSerialize MVoucher MCrypto MRequest MHeap MArray MVoucherHeap MConfig MHandlers MSerialHeap MRequestHeap MHandlerHeap
  SBase64 SHeap SArray SConfig SJson SVoucher SRequest SHandlers SPledge SChain SVoucherHeap SSerialHeap SRequestHeap SEnrolLogHeap SHandlerHeap SHonestHeap
  PBase64 PHeap PArray PVoucherText PVoucherRound PRequest PRequest2 PRequest3 PRequest4 PRequest5 PRequest6 PRequest7 PVoucherHeapWritten PHandlerHeap3 PHandlerHeap6 PHandlerHeap10.
Open Scope N_scope.

Lemma verified_bytes : forall o x d certs store c st json, holds_bytes x d -> verified o x certs store c st json -> verified o (ba_of d) certs store c st json.
Proof. intros o x d certs store c st json H (d' & s & H' & R). rewrite (holds_bytes_fun _ _ _ H' H) in R. exists d, s. split; [right; apply ba_of_has|exact R]. Qed.
Lemma verified_dec : forall o m certs store, (exists c st json, verified o (ba_of m) certs store c st json) \/ (forall c st json, ~ verified o (ba_of m) certs store c st json).
Proof.
  intros o m certs store. assert (Hm : holds_bytes (ba_of m) m) by (right; apply ba_of_has).
  destruct (d2i_cms o m) as [c|] eqn:Ec. 2:{ right. intros c st json (d' & s & H1 & H2 & _). rewrite (holds_bytes_fun _ _ _ H1 Hm) in H2. congruence. }
  destruct (opt_stack o certs) as [stk|] eqn:Es. 2:{ right. intros c' st json (d' & s & H1 & H2 & H3 & _). apply opt_stack_iff in H3. congruence. }
  destruct (opt_store o store) as [st|] eqn:Est. 2:{ right. intros c' st' json (d' & s & H1 & H2 & H3 & H4 & _). apply opt_store_iff in H4. congruence. }
  destruct (cms_verify o c stk st (match store with None => true | Some _ => false end)) as [json|] eqn:Ev.
  - left. exists c, stk, json, m, st. split; [exact Hm|]. split; [exact Ec|]. split; [apply opt_stack_iff; exact Es|]. split; [apply opt_store_iff; exact Est|exact Ev].
  - right. intros c' st' json (d' & s & H1 & H2 & H3 & H4 & H5). rewrite (holds_bytes_fun _ _ _ H1 Hm) in H2. apply opt_stack_iff in H3. apply opt_store_iff in H4. congruence.
Qed.

Lemma authored_single : forall o v cms certs store c st json, genuine o -> authored o v cms -> verified o (ba_of cms) certs store c st json -> single json.
Proof. intros o v cms certs store c st json G (cert & key & extra & text & R & S & Sg) V. rewrite (G _ _ _ _ _ _ _ _ _ _ Sg V). eapply written_single; eassumption. Qed.
Lemma library_clean : forall o x certs store, genuine o -> from_library o x certs store -> clean_content o (Some x) certs store.
Proof. intros o x certs store G H x' c st json Q V. injection Q as <-. destruct (H _ _ _ V) as (v & d & Hd & A). eapply authored_single; [exact G|exact A|]. eapply verified_bytes; [exact Hd|exact V]. Qed.
Lemma authored_read : forall o v cms certs store c st json, ossl_sane o -> genuine o -> authored o v cms -> verified o (ba_of cms) certs store c st json ->
  exists w, deserialize_voucher true (Some json) = Ok (Some w) /\ same_voucher v w.
Proof.
  intros o v cms certs store c st json OS G (cert & key & extra & text & R & S & Sg) V. pose proof (G _ _ _ _ _ _ _ _ _ _ Sg V) as ->. destruct V as (d & s & _ & _ & _ & _ & Hv). apply OS in Hv. destruct Hv as [_ L].
  destruct (json_roundtrip v R) as (t & S' & D). assert (t = text) as -> by congruence. exact (D L).
Qed.
Lemma signers_come : forall o b c st, signers_written o -> bytes_ok b -> d2i_cms o b = Some c -> exists l, signer_certs o c st true l.
Proof.
  intros o b c st H B Hc. unfold signer_certs. destruct (cms_signers o c st) as [xs|] eqn:E; [|exists None; reflexivity]. apply (H _ _ _ _ B Hc) in E. destruct xs as [|x xs]; [exists None; reflexivity|].
  assert (Q : forall ys, Forall (fun y => i2d_x509 o y <> None) ys -> exists ders : certlist, Forall2 (fun y e => i2d_x509 o y = Some (fst e) /\ snd e = 0%Z) ys ders).
  { induction ys as [|y ys IH]; intros F; [exists []; constructor|]. inversion F as [|? ? F1 F2]; subst. destruct (IH F2) as [ders Hd]. destruct (i2d_x509 o y) as [d|] eqn:Ed; [|contradiction]. exists ((d, 0%Z) :: ders). constructor; [split; [exact Ed|reflexivity]|exact Hd]. }
  destruct (Q _ E) as [ders Hd]. exists (Some ders), ders. split; [exact Hd|reflexivity].
Qed.

(** *** The registrar *)
Lemma honest_pledge_clean : forall o w f body, genuine o -> honest_pledge o w f body -> registrar_clean o w f body.
Proof. intros o w f body G H m vc vs D L1 L2. apply library_clean; [exact G|]. exact (H m vc vs D L1 L2). Qed.
Lemma honest_registrar_keeps : forall o w c f nn post h reqs answers h', ossl_sane o -> genuine o -> world_ok w -> heap_wf h -> plenty h -> registrar_config h c f -> names_at (hp_next h) nn h -> Forall (request_ok o w f) reqs ->
  Forall (fun r => honest_pledge o w f (snd r)) reqs -> full_registrar_serves o w c nn post h reqs = Ok (answers, h') -> kept (hp_next h) h h' /\ no_leak (hp_next h) h'.
Proof.
  intros o w c f nn post h reqs answers h' OS G WO W PL CF NA RO HP E. destruct (full_registrar_answers _ _ _ _ _ _ _ _ _ _ OS WO W PL CF NA RO E) as (_ & K & N). split; [exact K|]. apply N.
  eapply Forall_impl; [|exact HP]. intros r H. apply honest_pledge_clean; assumption.
Qed.

(** *** The MASA *)
Lemma honest_registrar_clean : forall o w f body, ossl_sane o -> genuine o -> signers_written o -> honest_registrar o w f body -> masa_clean o w f body.
Proof.
  intros o w f body OS G SW H m rv rs pv ps D L1 L2 L3 L4. split; [split|].
  - apply library_clean; [exact G|]. intros c st json V. destruct (H m rv rs pv ps _ _ _ D L1 L2 L3 L4 V) as (v & A & _). exists v, m. split; [right; apply ba_of_has|exact A].
  - intros x vr regs prior Q (c & st & json & V & Ds & _) Gp. injection Q as <-. destruct (H m rv rs pv ps _ _ _ D L1 L2 L3 L4 V) as (v & Av & B). destruct (authored_read _ _ _ _ _ _ _ _ OS G Av V) as (u & Du & Su).
    rewrite Ds in Du. assert (u = vr) as -> by (clear -Du; injection Du; auto). apply library_clean; [exact G|]. apply B.
    destruct Su as (_ & So & _). assert (Q : kind APrior <> KTime) by discriminate. specialize (So APrior Q). apply (f_equal (fun y => snd (fst y))) in So. unfold observe in So. cbv beta delta [fst snd] iota in So. rewrite So. exact Gp.
  - intros x Q. injection Q as <-. destruct (verified_dec o m rv rs) as [(c & st & json & V)|N]; [right|left; exact N].
    destruct (H m rv rs pv ps _ _ _ D L1 L2 L3 L4 V) as (v & Av & _). destruct (authored_read _ _ _ _ _ _ _ _ OS G Av V) as (u & Du & _). pose proof V as (d & s & Hd & Hc & _). assert (d = m) as -> by (eapply holds_bytes_fun; [exact Hd|right; apply ba_of_has]).
    destruct (signers_come o m c st SW (rfc_decode_bytes _ _ D) Hc) as [l Hl].
    exists u, l, c, st, json. auto.
Qed.
Lemma honest_masa_keeps : forall o w c f bodies h answers h', ossl_sane o -> genuine o -> signers_written o -> world_ok w -> heap_wf h -> plenty h -> masa_config h c f -> Forall bytes_ok bodies -> Forall (masa_fits o w f) bodies ->
  Forall (honest_registrar o w f) bodies -> full_masa_serves o w c 0 h bodies = Ok (answers, h') -> kept (hp_next h) h h' /\ no_leak (hp_next h) h'.
Proof.
  intros o w c f bodies h answers h' OS G SW WO W PL CF BO MF HR E. destruct (full_masa_answers _ _ _ _ _ _ _ _ OS WO W PL CF BO MF E) as (_ & K & N). split; [exact K|]. apply N.
  eapply Forall_impl; [|exact HR]. intros b H. apply honest_registrar_clean; assumption.
Qed.

(** *** The pledge *)
Lemma honest_masa_clean : forall o w f post1 post2, genuine o -> honest_masa o w f post1 post2 -> pledge_clean o w f post1 post2.
Proof. intros o w f post1 post2 G H t1 cms t2 r m vc vs FC PA L SC D L1 L2. apply library_clean; [exact G|]. exact (H t1 cms t2 r m vc vs FC PA L SC D L1 L2). Qed.
Lemma honest_pledge_keeps : forall o w c f post1 post2 h pinned z h', ossl_sane o -> genuine o -> world_ok w -> heap_wf h -> plenty h -> pledge_config h c f -> pledge_text_ok f -> post_ok post1 -> post_ok post2 ->
  pledge_fits w f post1 -> pinned <> 0 -> hp_cell h pinned = Live (Struct [P 0; I 0]) -> honest_masa o w f post1 post2 -> full_post_voucher_pledge_request o w c post1 post2 h pinned = Ok (z, h') ->
  (z = 0%Z /\ exists d, pinned_result h h' pinned d) \/ (z = (-1)%Z /\ kept (hp_next h) h h' /\ no_leak (hp_next h) h').
Proof.
  intros o w c f post1 post2 h pinned z h' OS G WO W PL CF TX PO1 PO2 FI P0 CP HM E. pose proof (honest_masa_clean _ _ _ _ _ G HM) as C.
  destruct (full_pledge_outcome _ _ _ _ _ _ _ _ _ _ OS WO W PL CF TX PO1 PO2 FI P0 CP E) as [(-> & t1 & t2 & d & _ & _ & R)|(-> & _ & K & N)]; [left|right]; (split; [reflexivity|]).
  - exists d. exact (R C).
  - split; [exact K|exact (N C)].
Qed.
