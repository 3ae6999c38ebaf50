(** Proofs about OpenSSL objects: the outcome of verifying a message, and generating. *)
From Verif Require Import Base PBase MBase64 MSerialize MOs MVoucher MCrypto MObjects SObjects PObjects PObjects2 PObjects3 PObjects4 PObjects5 PObjects6.
Open Scope nat_scope.

Lemma exatract_none : forall o l0 sv signers s L, bl l0 s L -> (sv = None \/ signers = [] /\ sv = Some []) -> exists s', exatract o sv signers s = Ok (Some None, s') /\ keeps s s' L /\ bl l0 s' L.
Proof.
  intros o l0 sv signers s L B [->|[-> ->]]; cbn [exatract]; [exists s; split; [reflexivity|]; split; [apply keeps_refl|exact B]|].
  destruct (ob_new s KStack) as [p s1] eqn:E1. pose proof (keeps_refl s L) as K0. destruct (new_step _ _ _ _ _ _ B E1) as [K [(-> & B1 & R)|(-> & B1 & V & R)]]; carry K; [eauto|]. cbn [obind].
  destruct (free_in l0 s1 _ L (ob_next s) KStack [] B1 ltac:(cnts) V) as (s2 & E2 & B2 & K). carry K. rewrite E2. cbn [obind]. eauto.
Qed.
Lemma rest_quiet : forall o (inn : inner o) c sv want l0 data signers mem stack content st ptrs s L lost cs, bl l0 s (ol (fst_id data) ++ mem :: ol stack ++ content :: ol st ++ ol ptrs ++ lost ++ L) ->
  (want = false \/ cms_signers o c sv = None \/ signers = [] /\ cms_signers o c sv = Some []) ->
  view s mem = Some (KBio, []) -> (forall x, stack = Some x -> exists l, view s x = Some (KStack, l)) -> view s content = Some (KCms, cs) ->
  (forall x, st = Some x -> exists l, view s x = Some (KStore, l)) -> (forall x, ptrs = Some x -> exists l, view s x = Some (KPtrs, l)) -> out_view s (fst_id data) ->
  exists s', rest o c sv want data signers (Some mem) stack content st ptrs s = Ok (Some (data, None), s') /\ keeps s s' L /\ bl l0 s' (ol (fst_id data) ++ lost ++ L) /\ out_view s' (fst_id data).
Proof.
  intros o inn c sv want l0 data signers mem stack content st ptrs s L lost cs B W VM VS VC VT VP VB.
  assert (X : exists s1, keeps s s1 (ol (fst_id data) ++ mem :: ol stack ++ content :: ol st ++ ol ptrs ++ lost ++ L) /\ bl l0 s1 (ol (fst_id data) ++ mem :: ol stack ++ content :: ol st ++ ol ptrs ++ lost ++ L) /\
     rest o c sv want data signers (Some mem) stack content st ptrs s = leave (Some mem) stack content st ptrs (Some (data, None)) s1).
  { unfold rest. destruct want; [|exists s; split; [apply keeps_refl|]; auto]. destruct W as [W|W]; [discriminate W|]. destruct (exatract_none o l0 _ _ s _ B W) as (s1 & -> & K & B1). cbn [obind]. eauto. }
  destruct X as (s1 & K & B1 & ->). pose proof (keeps_refl s L) as K0.
  pose proof (opt_view_keeps _ _ _ stack KStack VS K ltac:(intros y Q; subst stack; isin)) as VS1. pose proof (opt_view_keeps _ _ _ st KStore VT K ltac:(intros y Q; subst st; isin)) as VT1. pose proof (opt_view_keeps _ _ _ ptrs KPtrs VP K ltac:(intros y Q; subst ptrs; isin)) as VP1. pose proof (out_view_keeps _ _ _ _ VB K ltac:(intros y Q; rewrite Q; isin)) as VB1. carry K.
  destruct (leave_step (option (option (bytes * nat) * option (certlist * nat))) l0 s1 _ (ol (fst_id data) ++ lost ++ L) (Some mem) stack content st ptrs (Some (data, None)) cs B1 ltac:(cnts) ltac:(intros x Q; injection Q as <-; eauto) VS1 VC VT1 VP1) as (s2 & E2 & K & B2).
  pose proof (out_view_keeps _ _ _ _ VB1 K ltac:(intros y Q; rewrite Q; isin)) as VB2. carry K. eauto.
Qed.
Lemma leaves_of : forall s s' b, bl (ob_list s) s' (ol b ++ []) -> out_view s' b -> leaves s s' (ol b).
Proof. intros s s' b B V. rewrite app_nil_r in B. apply bl_leaves; [exact B|]. destruct b as [x|]; [constructor; [apply V; reflexivity|constructor]|constructor]. Qed.
(** Without the certificates nothing is undefined, whichever calls fail. *)
Theorem verify_unwanted : forall o (inn : inner o) cms certs store s d, ba_read cms = Ok d ->
  exists r s', verify_cms o inn cms certs store false s = Ok (r, s') /\ apart s s' /\ (steady s -> crypto_verify_cms o cms certs store false = Ok (strip r) /\ (r <> None \/ takes o -> leaves s s' (ids_of r))).
Proof.
  intros o inn cms certs store s d RD. destruct (verify_prefix o inn (ob_list s) cms certs store s [] d RD (bl_start s)) as [(s1 & lost & E & K & B & FU & _ & LO)|X].
  - exists None, s1. split; [apply E|]. split; [eapply bl_apart; exact B|]. intros ST. split; [apply FU, ST|]. intros [[]|T]; [reflexivity|]. rewrite (LO ST T) in B. apply bl_leaves; [exact B|constructor].
  - destruct X as (c & sv & tv & text & data & signers & mem & stack & content & st & ptrs & s1 & lost & cs & EV & K & B & LO & VM & VS & VC & VT & VP & VB & DT & FB & LB & NE & FU).
    destruct (rest_quiet o inn c sv false (ob_list s) data signers mem stack content st ptrs s1 [] lost cs B (or_introl eq_refl) VM VS VC VT VP VB) as (s2 & E2 & K2 & B2 & V2). exists (Some (data, None)), s2. split; [rewrite EV; exact E2|]. split; [eapply bl_apart; exact B2|].
    intros ST. destruct (FU ST) as (FC & FS & FT & FV). split.
    + unfold crypto_verify_cms. rewrite RD. cbn [obind]. rewrite FC, FS, FT, FV. cbn [strip option_map]. rewrite DT. reflexivity.
    + intros _. cbn [ids_of option_map ol]. rewrite app_nil_r. rewrite (LO ST) in B2. apply leaves_of; assumption.
Qed.
(** With them it is undefined exactly when there are some. *)
Theorem verify_wanted : forall o (inn : inner o) cms certs store s d, ba_read cms = Ok d -> coherent inn -> steady s ->
  (exists k, verify_cms o inn cms certs store true s = UB k) /\ reaches o d certs store \/
  ~ reaches o d certs store /\ exists r s', verify_cms o inn cms certs store true s = Ok (r, s') /\ apart s s' /\ crypto_verify_cms o cms certs store true = Ok (strip r) /\ (r <> None \/ takes o -> leaves s s' (ids_of r)).
Proof.
  intros o inn cms certs store s d RD CO ST. destruct (verify_prefix o inn (ob_list s) cms certs store s [] d RD (bl_start s)) as [(s1 & lost & E & K & B & FU & NR & LO)|X].
  - right. split; [exact (NR ST)|]. exists None, s1. split; [apply E|]. split; [eapply bl_apart; exact B|]. split; [apply FU, ST|]. intros [[]|T]; [reflexivity|]. rewrite (LO ST T) in B. apply bl_leaves; [exact B|constructor].
  - destruct X as (c & sv & tv & text & data & signers & mem & stack & content & st & ptrs & s1 & lost & cs & EV & K & B & LO & VM & VS & VC & VT & VP & VB & DT & FB & LB & NE & FU).
    destruct (FU ST) as (FC & FS & FT & FV).
    assert (D : (exists x xs, cms_signers o c sv = Some (x :: xs)) \/ (cms_signers o c sv = None \/ cms_signers o c sv = Some [])) by (destruct (cms_signers o c sv) as [[|x xs]|]; eauto).
    destruct D as [(x & xs & Q)|Q].
    + left. assert (RE : reaches o d certs store) by (exists c, sv, tv, text, x, xs; auto). split; [eapply verify_crashes; eauto|exact RE].
    + right. split. { intros (c' & sv' & tv' & t' & x & xs & QC & QS & _ & _ & QX). rewrite FC in QC. injection QC as <-. rewrite FS in QS. injection QS as <-. destruct Q as [Q|Q]; rewrite Q in QX; discriminate QX. }
      assert (W : true = false \/ cms_signers o c sv = None \/ signers = [] /\ cms_signers o c sv = Some []) by (right; destruct Q as [Q|Q]; [left; exact Q|right; split; [apply (NE CO _ Q); reflexivity|exact Q]]).
      destruct (rest_quiet o inn c sv true (ob_list s) data signers mem stack content st ptrs s1 [] lost cs B W VM VS VC VT VP VB) as (s2 & E2 & K2 & B2 & V2). exists (Some (data, None)), s2. split; [rewrite EV; exact E2|]. split; [eapply bl_apart; exact B2|]. split.
      * unfold crypto_verify_cms. rewrite RD. cbn [obind]. rewrite FC, FS, FT, FV. cbn [strip option_map]. rewrite DT. unfold exatract_cms_certs. destruct Q as [->| ->]; reflexivity.
      * intros _. cbn [ids_of option_map ol]. rewrite app_nil_r. rewrite (LO ST) in B2. apply leaves_of; assumption.
Qed.

(** ** Signing and chains, for the caller *)
Theorem sign_objects : forall o k data cert key certs s cb kb, ba_read cert = Ok cb -> ba_read key = Ok kb ->
  exists r s', sign_cms o k data cert key certs s = Ok (r, s') /\ apart s s' /\ (steady s -> crypto_sign o k data cert key certs = Ok (option_map fst r) /\ leaves s s' (match r with Some (_, b) => ol b | None => [] end)).
Proof.
  intros o k data cert key certs s cb kb RC RK. destruct (sign_step o (ob_list s) k data cert key certs s [] cb kb RC RK (bl_start s)) as (r & s' & lost & E & K & M & S). exists r, s'. split; [exact E|]. destruct r as [[d b]|].
  - destruct M as (B & BD & V). split; [eapply bl_apart; exact B|]. intros ST. destruct (S ST) as [-> Q]. split; [exact Q|]. apply leaves_of; assumption.
  - split; [eapply bl_apart; exact M|]. intros ST. destruct (S ST) as [-> Q]. split; [exact Q|]. apply bl_leaves; [exact M|constructor].
Qed.
Theorem chain_objects : forall o (inn : inner o) cert certs store s d, ba_read cert = Ok d ->
  exists z s', verify_cert o inn cert certs store s = Ok (z, s') /\ apart s s' /\ (steady s -> crypto_verify_cert o cert certs store = Ok z /\ (takes o -> leaves s s' [])).
Proof.
  intros o inn cert certs store s d RD. destruct (verify_cert_step o inn (ob_list s) cert certs store s [] d RD (bl_start s)) as (z & s' & lost & E & K & B & F & LO). exists z, s'. split; [exact E|]. split; [eapply bl_apart; exact B|]. intros ST. split; [exact (F ST)|]. intros T. rewrite (LO ST T) in B. apply bl_leaves; [exact B|constructor].
Qed.
