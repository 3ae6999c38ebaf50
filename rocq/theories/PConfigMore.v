(** Proofs about the configuration, continued: files, certificates, findings. *)
From Verif Require Import Base PBase MOs MHeap MArray MConfig SHeap SArray SConfig PHeap PArray PBlocks PConfig.
Open Scope N_scope.

(** *** Configuration files *)
Lemma entries_in : forall f sec e, In e (entries f sec) -> exists x, In x f /\ In e (snd x).
Proof. intros f sec e H. unfold entries in H. destruct (find _ f) as [x|] eqn:E; [|destruct H]. apply find_some in E. exists x. tauto. Qed.
Lemma Forall_firstn_ : forall (Q : N -> Prop) n (l : list N), Forall Q l -> Forall Q (firstn n l).
Proof. intros Q n l H. rewrite Forall_forall in *. intros x Hx. apply H. revert l H Hx. induction n; intros [|y l] H Hx; cbn in Hx; try contradiction. destruct Hx as [->|Hx]; [left; reflexivity|]. right. apply IHn; [|exact Hx]. intros z Hz. apply H. right. exact Hz. Qed.

Lemma minini_ok : forall f, file_ok f -> ini_ok (minini f).
Proof.
  intros f Hf. unfold file_ok in Hf. rewrite Forall_forall in Hf. assert (HE : forall sec e, In e (entries f sec) -> cstr_ok (fst e) /\ fst e <> [] /\ blen (fst e) < MAX_CONFIG_VALUE_SIZE /\ cstr_ok (snd e)).
  { intros sec e He. destruct (entries_in _ _ _ He) as (x & Hx & Hex). specialize (Hf x Hx). rewrite Forall_forall in Hf. apply Hf. exact Hex. }
  split.
  - intros s. apply Forall_forall. intros k Hk. cbn [minini ini_keys] in Hk. apply in_map_iff in Hk. destruct Hk as (e & <- & He). destruct (HE s e He) as (A & B & C & _). auto.
  - intros s k d n Hd Hn. cbn [minini ini_gets]. set (t := match find (fun e => beqb (fst e) k) (entries f s) with Some e => snd e | None => d end).
    assert (Ht : cstr_ok t). { unfold t. destruct (find _ (entries f s)) as [e|] eqn:E; [|exact Hd]. apply find_some in E. apply (HE s e). tauto. }
    split; [apply Forall_firstn_; exact Ht|]. unfold blen. rewrite firstn_length. lia.
Qed.

Lemma list_meant : forall f sec key, Forall (fun e => blen (snd e) < INI_BUFFERSIZE) (entries f sec) ->
  (forall v v', In (key, v) (entries f sec) -> In (key, v') (entries f sec) -> v = v') -> list_of_file (minini f) sec key = meant f sec key.
Proof.
  intros f sec key Hs Hu. unfold list_of_file, meant. cbn [minini ini_keys ini_gets].
  set (es := entries f sec) in *. clearbody es.
  assert (G : forall v, (forall v', In (key, v') es -> v' = v) -> v <> [] -> map (fun e => (snd e ++ [0], 0%Z)) (filter (fun e => beqb (fst e) key && negb (beqb (snd e) [])) es) = repeat (v ++ [0], 0%Z) (count_occ bytes_dec (map fst es) key)).
  { clear Hs Hu. intros v Hv Hv0. induction es as [|[k w] es IH]; [reflexivity|]. cbn [map filter fst snd count_occ]. destruct (bytes_dec k key) as [->|Hne].
    - rewrite beqb_refl. assert (w = v) as -> by (apply Hv; left; reflexivity). rewrite (proj2 (beqb_neq _ _) Hv0). cbn [andb negb map repeat snd]. f_equal. apply IH. intros v' H'. apply Hv. right. exact H'.
    - rewrite (proj2 (beqb_neq _ _) Hne). cbn [andb]. apply IH. intros v' H'. apply Hv. right. exact H'. }
  assert (G0 : (forall v', In (key, v') es -> v' = []) -> map (fun e => (snd e ++ [0], 0%Z)) (filter (fun e => beqb (fst e) key && negb (beqb (snd e) [])) es) = []).
  { clear Hs Hu G. intros Hv. induction es as [|[k w] es IH]; [reflexivity|]. cbn [filter fst snd]. destruct (beqb k key) eqn:Ek.
    - apply beqb_eq in Ek. subst k. rewrite (Hv w) by (left; reflexivity). cbn [andb]. rewrite beqb_refl. cbn [negb]. apply IH. intros v' H'. apply Hv. right. exact H'.
    - cbn [andb]. apply IH. intros v' H'. apply Hv. right. exact H'. }
  destruct (find (fun e => beqb (fst e) key) es) as [[k v]|] eqn:E.
  - apply find_some in E. cbn [fst snd] in *. destruct E as [Ein Ek]. apply beqb_eq in Ek. subst k. rewrite Forall_forall in Hs. pose proof (Hs _ Ein) as Hl. cbn [snd] in Hl.
    rewrite firstn_all2 by (unfold blen in Hl; lia). destruct v as [|c v].
    + rewrite G0; [reflexivity|]. intros v' H'. apply Hu; assumption.
    + symmetry. apply G; [|discriminate]. intros v' H'. apply Hu; assumption.
  - rewrite firstn_nil. symmetry. apply G0. intros v' H'. pose proof (find_none _ _ E _ H') as Q. cbn [fst] in Q. rewrite beqb_refl in Q. discriminate.
Qed.

Lemma list_partial : forall f h cfg h1 sec fld key, heap_wf h -> file_ok f -> zero_cfg h cfg -> load_brski_config true (minini f) h cfg = Ok (0%Z, h1) ->
  In (sec, fld, key) config_lists ->
  Forall (fun e => blen (snd e) < INI_BUFFERSIZE) (entries f sec) ->
  (forall v v', In (key, v) (entries f sec) -> In (key, v') (entries f sec) -> v = v') ->
  cfg_list h1 cfg fld = Ok (meant f sec key).
Proof.
  intros f h cfg h1 sec fld key W Hf Z E Hi Hs Hu. rewrite <- (list_meant f sec key Hs Hu).
  destruct (config_outcome true (minini f) h cfg W (minini_ok f Hf) Z) as [(h1' & h2 & E' & _ & A & _)|[(h1' & E' & _)|(k & E' & _)]]; rewrite E in E'; try discriminate.
  injection E' as <-. apply A. exact Hi.
Qed.

(** A heap that holds an empty configuration and nothing else. *)
Definition cfg_heap (oom : N -> bool) : heap := mk_heap 2 (fun a => if a =? 1 then Live (Struct (repeat (P 0) cfg_fields)) else Fresh) oom.
Lemma cfg_heap_ok : forall oom, heap_wf (cfg_heap oom) /\ zero_cfg (cfg_heap oom) 1.
Proof. intros oom. split; [|reflexivity]. split; [reflexivity|]. split; [reflexivity|]. intros a Ha. cbn [cfg_heap hp_cell hp_next] in *. destruct (a =? 1) eqn:E; [lia|reflexivity]. Qed.

Definition two_certs : ini_file :=
  [(s2b "pledge", [(s2b "serialNumber", s2b "12345"); (s2b "cmsVerifyCertPath", s2b "a.crt"); (s2b "cmsVerifyCertPath", s2b "b.crt")]);
   (s2b "masa", [(s2b "cmsSignCertPath", s2b "m.crt"); (s2b "cmsAdditionalCertPath", s2b "x.crt")])].
Definition file_okb (f : ini_file) : bool :=
  forallb (fun x => forallb (fun e : bytes * bytes => cstr_okb (fst e) && negb (beqb (fst e) []) && (blen (fst e) <? MAX_CONFIG_VALUE_SIZE) && cstr_okb (snd e)) (snd x)) f.
Lemma file_okb_ok : forall f, file_okb f = true -> file_ok f.
Proof.
  intros f H. apply Forall_forall. intros x Hx. unfold file_okb in H. rewrite forallb_forall in H. specialize (H x Hx). apply Forall_forall. intros e He. rewrite forallb_forall in H. specialize (H e He).
  repeat rewrite Bool.andb_true_iff in H. destruct H as (((A & B) & C) & D). split; [apply cstr_okb_ok; exact A|]. split; [intros Q; rewrite Q, beqb_refl in B; discriminate|]. split; [apply N.ltb_lt; exact C|apply cstr_okb_ok; exact D].
Qed.
Lemma two_certs_ok : file_ok two_certs.
Proof. apply file_okb_ok. vm_compute. reflexivity. Qed.

Lemma config_plenty : forall m h cfg, heap_wf h -> ini_ok m -> zero_cfg h cfg -> plenty h ->
  exists h1 h2, load_brski_config true m h cfg = Ok (0%Z, h1) /\ holds m h1 cfg /\
     free_config_content h1 cfg = Ok h2 /\ kept (hp_next h) h h2 /\ no_leak (hp_next h) h2.
Proof.
  intros m h cfg W OK Z PL. destruct (config_outcome true m h cfg W OK Z) as [(h1 & h2 & E & _ & R)|[(h1 & _ & [Q|(a & _ & Q)] & _)|(k & _ & _ & _ & (a & _ & Q))]].
  - exists h1, h2. split; [exact E|exact R].
  - discriminate Q.
  - rewrite PL in Q. discriminate Q.
  - rewrite PL in Q. discriminate Q.
Qed.

Lemma list_refuted : exists f h cfg h1 sec fld key, heap_wf h /\ plenty h /\ file_ok f /\ zero_cfg h cfg /\ load_brski_config true (minini f) h cfg = Ok (0%Z, h1) /\
  In (sec, fld, key) config_lists /\ Forall (fun e => blen (snd e) < INI_BUFFERSIZE) (entries f sec) /\
  cfg_list h1 cfg fld <> Ok (meant f sec key).
Proof.
  destruct (cfg_heap_ok (fun _ => false)) as [W Z]. assert (PL : plenty (cfg_heap (fun _ => false))) by (intros a; reflexivity).
  destruct (config_plenty (minini two_certs) _ _ W (minini_ok _ two_certs_ok) Z PL) as (h1 & h2 & E & [_ A] & _).
  exists two_certs, (cfg_heap (fun _ => false)), 1, h1, (s2b "pledge"), 9%nat, (s2b "cmsVerifyCertPath").
  split; [exact W|]. split; [exact PL|]. split; [exact two_certs_ok|]. split; [exact Z|]. split; [exact E|]. split; [right; left; reflexivity|]. split.
  - repeat apply Forall_cons; try apply Forall_nil; vm_compute; reflexivity.
  - rewrite (A (s2b "pledge") 9%nat (s2b "cmsVerifyCertPath")) by (right; left; reflexivity). vm_compute. discriminate.
Qed.

(** *** Running out of memory inside a list *)
Definition one_cert : ini_file := [(s2b "pledge", [(s2b "cmsAdditionalCertPath", s2b "a.crt")])].
Lemma one_cert_ok : file_ok one_cert.
Proof. apply file_okb_ok. vm_compute. reflexivity. Qed.
Lemma config_refuted : exists m h cfg n, heap_wf h /\ ini_ok m /\ zero_cfg h cfg /\ (forall a, hp_oom h a = true <-> a = n) /\ load_brski_config true m h cfg = UB UseAfterFree.
Proof.
  exists (minini one_cert), (cfg_heap (fun a => a =? 12)), 1, 12. destruct (cfg_heap_ok (fun a => a =? 12)) as [W Z]. split; [exact W|]. split; [apply minini_ok; exact one_cert_ok|]. split; [exact Z|]. split; [intros a; apply N.eqb_eq|].
  vm_compute. reflexivity.
Qed.
