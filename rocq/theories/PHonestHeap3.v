(** The concrete parties connected, with complete memory. *)
From Coq Require Import Permutation ZifyBool ZifyNat ZifyN.
From Verif Require Import Base PBase MOs MBase64 MSerialize MVoucher MCrypto MRequest MHeap MArray MVoucherHeap MConfig MHandlers MSerialHeap MRequestHeap MHandlerHeap
  SBase64 SHeap SArray SConfig SJson SVoucher SRequest SHandlers SPledge SChain SVoucherHeap SSerialHeap SRequestHeap SEnrolLogHeap SHandlerHeap SHonestHeap
  PBase64 PHeap PArray PRequest PRequest6 PMasa PRegistrar PRegistrar2 PPledge3 PPledge4 PChain PChain2 PVoucherHeapFind PHandlerHeap3 PHandlerHeap6 PHandlerHeap10 PHonestHeap PHonestHeap2.
Open Scope N_scope.

Lemma toy_signers : signers_written toy.
Proof.
  intros b c st xs B D Q. cbn [toy cms_signers] in Q. injection Q as <-. constructor; [|constructor]. destruct b as [|id t]; [discriminate|]. cbn [toy d2i_cms] in D. injection D as <-. inversion B as [|? ? B1 _]; subst.
  cbn [toy i2d_x509 fst bytes_okb forallb]. rewrite (proj2 (N.ltb_lt _ _) B1). discriminate.
Qed.
Lemma full_chain_runs : exists h', full_post_voucher_pledge_request toy pledge_world pledge_case_conf (contact 404 [] [2; 7])
    (full_registrar_service toy registrar_world registrar_case_conf nn_full (full_masa_service toy masa_world masa_case_conf PMasa.masa_case) full_case pledge_view (server [2; 7])) (PPledge4.pledge_case (s2b "CQ==")) 8 = Ok (0%Z, h') /\ pinned_result (PPledge4.pledge_case (s2b "CQ==")) h' 8 [7; 7].
Proof.
  assert (CN : cstr_ok (s2b "CQ==")) by (apply cstr_okb_ok; reflexivity). assert (DR : date_ready tm_case) by (right; vm_compute; repeat split; discriminate).
  assert (BR : forall d, d <> [] -> bytes_okb d = true -> blen d < SIZE_MAX / 4 -> bytes_ready d) by (intros d H1 H2 H3; split; [exact H1|]; split; [apply bytes_okb_ok; exact H2|exact H3]).
  assert (PA : Forall plain_char (s2b "A")) by (constructor; [unfold plain_char; vm_compute; repeat split; discriminate|constructor]).
  assert (QQ : match full_post_voucher_pledge_request toy pledge_world pledge_case_conf (contact 404 [] [2; 7])
    (full_registrar_service toy registrar_world registrar_case_conf nn_full (full_masa_service toy masa_world masa_case_conf PMasa.masa_case) full_case pledge_view (server [2; 7])) (PPledge4.pledge_case (s2b "CQ==")) 8 with Ok (z, h') => (z =? 0)%Z | _ => false end = true) by (vm_compute; reflexivity).
  destruct (full_post_voucher_pledge_request toy pledge_world pledge_case_conf (contact 404 [] [2; 7])
    (full_registrar_service toy registrar_world registrar_case_conf nn_full (full_masa_service toy masa_world masa_case_conf PMasa.masa_case) full_case pledge_view (server [2; 7])) (PPledge4.pledge_case (s2b "CQ==")) 8) as [[z h']|k] eqn:E; [|discriminate QQ]. apply Z.eqb_eq in QQ. subst z. exists h'. split; [reflexivity|].
  destruct (full_exchange toy pledge_world registrar_world masa_world pledge_case_conf (pledge_case_files (s2b "CQ==")) registrar_case_conf registrar_case_files masa_case_conf masa_case_files
    (PPledge4.pledge_case (s2b "CQ==")) full_case PMasa.masa_case nn_full pledge_view (server [2; 7]) (contact 404 [] [2; 7]) 8 toy_sane toy_genuine toy_signers pledge_world_ok registrar_world_ok masa_world_ok
    (pledge_case_wf _) full_case_wf masa_case_wf (fun a => eq_refl) (fun a => eq_refl) (fun a => eq_refl) (pledge_case_config _ CN) full_case_config masa_case_config full_case_names (pledge_case_text _ CN)) as (X & _).
  - apply pledge_view_ok. reflexivity.
  - exact pledge_view_short.
  - apply server_ok. apply bytes_okb_ok. reflexivity.
  - apply contact_ok; apply bytes_okb_ok; reflexivity.
  - split; [intros t Q; injection Q as <-; exact DR|]. split; [intros s Q; injection Q as <-; exact PA|].
    intros n d (d' & Q & ->) Q'. injection Q' as <-. vm_compute in Q. injection Q as <-. apply BR; [discriminate|reflexivity|reflexivity].
  - split; [intros t Q; injection Q as <-; exact DR|]. intros i Q. injection Q as <-. apply BR; [discriminate|reflexivity|vm_compute; reflexivity].
  - split; [intros t Q; vm_compute in Q; injection Q as <-; right; vm_compute; repeat split; discriminate|]. intros d Q. vm_compute in Q. injection Q as <-. apply BR; [discriminate|reflexivity|reflexivity].
  - intros t (s & r & v & Q & _ & D). injection Q as <- <- <-. injection D as <-. apply BR; [discriminate|reflexivity|reflexivity].
  - split; [|intros i Q; injection Q as <-; vm_compute; reflexivity]. intros s CS. assert (s = s2b "A") as -> by (destruct CS as [_ (t & Q & ->)]; vm_compute in Q; assert (t = [65]) as -> by congruence; reflexivity). split; [exact PA|reflexivity].
  - intros s Q. injection Q as <-. reflexivity.
  - discriminate.
  - reflexivity.
  - destruct (X 0%Z h' E) as [(_ & d & WC & R)|[Q _]]; [|discriminate Q]. vm_compute in WC. assert (d = [7; 7]) as -> by congruence. exact R.
Qed.


(** What the parties send in this exchange. *)
Definition text_of (v : voucher) : bytes := match serialize_voucher (Some v) with Ok (Some t) => t | _ => [] end.
Definition sent1 : bytes := 1 :: text_of (PRequest5.pv1 tm_case (Some [9]) [2; 7] (s2b "A")).
Definition sent2 : bytes := 2 :: text_of (PRequest5.pv2 tm_case (Some [9]) (s2b "A") (s2b "maker CA") sent1).
Lemma case_ready : date_ready tm_case /\ (forall d, Some [9] = Some d -> bytes_ready d) /\ bytes_ready [2; 7] /\ bytes_ready (s2b "maker CA") /\ bytes_ready sent1 /\ Forall plain_char (s2b "A").
Proof.
  assert (BR : forall d, d <> [] -> bytes_okb d = true -> blen d < SIZE_MAX / 4 -> bytes_ready d) by (intros d H1 H2 H3; split; [exact H1|]; split; [apply bytes_okb_ok; exact H2|exact H3]).
  split; [right; vm_compute; repeat split; discriminate|]. split; [intros d Q; injection Q as <-; apply BR; [discriminate|reflexivity|reflexivity]|]. split; [apply BR; [discriminate|reflexivity|reflexivity]|].
  split; [apply BR; [discriminate|reflexivity|vm_compute; reflexivity]|]. split; [apply BR; [discriminate|vm_compute; reflexivity|vm_compute; reflexivity]|]. constructor; [unfold plain_char; vm_compute; repeat split; discriminate|constructor].
Qed.
Lemma toy_authored : forall id v, json_ready v -> serialize_voucher (Some v) = Ok (Some (text_of v)) -> bytes_okb (id :: text_of v) = true -> authored toy v (id :: text_of v).
Proof.
  intros id v R S B. exists (Some (ba_of [id; 0])), (Some (ba_of [id])), None, (text_of v). split; [exact R|]. split; [exact S|].
  exists [id; 0], [id], [id; 0], [id], None, (id, text_of v). split; [apply ba_of_has|]. split; [apply ba_of_has|]. split; [reflexivity|]. split; [reflexivity|]. split; [exact Logic.I|].
  split; [cbn [toy cms_sign hd]; rewrite N.eqb_refl; reflexivity|]. cbn [toy i2d_cms fst snd]. rewrite B. reflexivity.
Qed.
Lemma sent1_authored : authored toy (PRequest5.pv1 tm_case (Some [9]) [2; 7] (s2b "A")) sent1.
Proof. destruct case_ready as (D & N & T & _ & _ & S). apply toy_authored; [apply ready1; try assumption; reflexivity|vm_compute; reflexivity|vm_compute; reflexivity]. Qed.
Lemma sent2_authored : authored toy (PRequest5.pv2 tm_case (Some [9]) (s2b "A") (s2b "maker CA") sent1) sent2.
Proof. destruct case_ready as (D & N & _ & M & P1 & S). apply toy_authored; [apply ready2; try assumption; reflexivity|vm_compute; reflexivity|vm_compute; reflexivity]. Qed.
Lemma sent_bytes : bytes_ok sent1 /\ bytes_ok sent2.
Proof. split; apply bytes_okb_ok; vm_compute; reflexivity. Qed.
Lemma registrar_hears : honest_pledge toy registrar_world registrar_case_files (rfc_encode sent1) /\
  exists h', full_registrar_serves toy registrar_world registrar_case_conf nn_full granting full_case [(Some pledge_view, rfc_encode sent1); (Some pledge_view, rfc_encode sent1)] = Ok ([(200%Z, s2b "voucher"); (200%Z, s2b "voucher")], h').
Proof. split; [eapply request_honest; [apply sent_bytes|exact sent1_authored]|]. eexists. vm_compute. reflexivity. Qed.
Lemma masa_hears : honest_registrar toy masa_world masa_case_files (rfc_encode sent2) /\
  exists v h', full_masa_serves toy masa_world masa_case_conf 0 PMasa.masa_case [rfc_encode sent2; rfc_encode sent2] = Ok ([(200%Z, v); (200%Z, v)], h').
Proof. split; [eapply relayed_honest; [apply sent_bytes|exact sent1_authored|exact sent2_authored]|]. eexists. eexists. vm_compute. reflexivity. Qed.

(** A serial number that is the name of a member. *)
Definition named : voucher := PRequest5.pv1 tm_case (Some [9]) [2; 7] (s2b "nonce").
Lemma named_case : exists t, json_ready named /\ serialize_voucher (Some named) = Ok (Some t) /\ repeated (attr_name ANonce) t.
Proof.
  exists (text_of named). destruct case_ready as (D & N & T & _). split; [apply ready1; try assumption; [|reflexivity]|].
  - repeat (apply Forall_cons; [unfold plain_char; vm_compute; repeat split; discriminate|]). apply Forall_nil.
  - split; [vm_compute; reflexivity|].
    exists (firstn 102 (text_of named)), (firstn 41 (skipn 107 (text_of named))), (skipn 153 (text_of named)). vm_compute. reflexivity.
Qed.

(** What the MASA of this exchange answers. *)
Definition sent3 : bytes := 3 :: text_of (PRequest5.pv3 tm_case (Some [9]) (s2b "A") [7; 7]).
Lemma sent3_authored : authored toy (PRequest5.pv3 tm_case (Some [9]) (s2b "A") [7; 7]) sent3.
Proof.
  destruct case_ready as (D & N & _ & _ & _ & S). apply toy_authored; [|vm_compute; reflexivity|vm_compute; reflexivity]. apply ready3; try assumption; [|reflexivity].
  split; [discriminate|]. split; [apply bytes_okb_ok; reflexivity|reflexivity].
Qed.
Lemma pledge_hears : honest_masa toy pledge_world (pledge_case_files (s2b "CQ==")) ask_first (reply sent3) /\
  exists h', full_post_voucher_pledge_request toy pledge_world pledge_case_conf ask_first (reply sent3) (PPledge4.pledge_case (s2b "CQ==")) 8 = Ok (0%Z, h').
Proof.
  split.
  - intros tls1 cms tls response m vc vs _ _ _ (s & v & E & _ & _) D _ _. unfold reply, contact in E. assert (response = rfc_encode sent3) as -> by congruence.
    assert (B : bytes_ok sent3) by (apply bytes_okb_ok; vm_compute; reflexivity). destruct (arrives _ _ B D) as [-> _]. eapply authored_library; exact sent3_authored.
  - eexists. vm_compute. reflexivity.
Qed.
