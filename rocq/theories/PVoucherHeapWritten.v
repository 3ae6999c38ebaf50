(** The texts the library itself writes are read without loss. *)
From Coq Require Import Permutation ZifyBool ZifyNat ZifyN.
From Verif Require Import Base PBase MSerialize SSerialize MVoucher SVoucher PVoucher SJson PVoucherText PVoucherJson PVoucherRound
  MHeap MVoucherHeap SHeap SArray SVoucherHeap PHeap PArray PVoucherHeap PVoucherHeapJson PRequest5.
Open Scope N_scope.

Lemma NoDup_filter_map : forall (l : list (attr * jval * pval)) f, map att_of l = filter f all_attrs -> NoDup (map m_key (map mem_of l)).
Proof.
  intros l f E. assert (Q : map m_key (map mem_of l) = map attr_name (map att_of l)) by (rewrite !map_map; apply map_ext; intros [[a x] p]; reflexivity).
  rewrite Q, E. clear Q E l. assert (N : NoDup (filter f all_attrs)) by (apply NoDup_filter; apply all_attrs_nodup).
  assert (A : forall a, In a (filter f all_attrs) -> In a all_attrs) by (intros a H; apply filter_In in H; apply H).
  induction N as [|a l Ha N IH]; [constructor|]. cbn [map]. constructor.
  - intros Hi. apply in_map_iff in Hi. destruct Hi as (b & Eb & Hb). assert (a = b) as <- by (apply attr_name_inj; [apply A; left; reflexivity|apply A; right; exact Hb|congruence]). contradiction.
  - apply IH. intros b Hb. apply A. right. exact Hb.
Qed.
Lemma written_single : forall v text, json_ready v -> serialize_voucher (Some v) = Ok (Some text) -> single text.
Proof.
  intros v text Hr H. destruct (serialize_text v Hr) as (l & G & L & S). rewrite S in H. injection H as <-. right.
  exists no_ws, root_name, (map mem_of l). split; [exact no_ws_ok|]. split; [exact root_plain|]. split; [apply (good_meaning v l G)|]. split; [reflexivity|]. eapply NoDup_filter_map. exact L.
Qed.
Lemma written_no_leak : forall v text h0, json_ready v -> serialize_voucher (Some v) = Ok (Some text) -> blen text < 2147483648 -> heap_wf h0 -> plenty h0 ->
  exists w h h', h_deserialize_voucher h0 text = Ok (w, h) /\ w <> 0 /\ h_free_voucher h w = Ok h' /\ kept (hp_next h0) h0 h' /\ no_leak (hp_next h0) h'.
Proof.
  intros v text h0 Hr S L W PL. pose proof (text_bytes v text Hr S) as B. destruct (deserialize_no_leak text h0 B L W PL (written_single v text Hr S)) as (w & h & h' & E & F & K & N).
  exists w, h, h'. split; [exact E|]. split; [|auto]. destruct (json_roundtrip v Hr) as (t & S' & D). assert (t = text) as -> by congruence. destruct (D L) as (u & U & _).
  destruct (deserialize_life text h0 B L W (PL _)) as (w' & h1 & E1 & _ & [[-> Q]|[V0 _]]); rewrite E in E1; injection E1 as <- <-; [|exact V0]. destruct (Q PL) as [X _]. congruence.
Qed.
