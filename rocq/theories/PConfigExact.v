(** When a list of a configuration file is loaded as it is meant. *)
From Verif Require Import Base PBase MOs MHeap MArray MConfig SHeap SArray SConfig PHeap PArray PBlocks PConfig PConfigMore.
Open Scope N_scope.

Lemma meant_in : forall es key v, In (key, v) es -> v <> [] -> In (v ++ [0], 0%Z) (map (fun e : bytes * bytes => (snd e ++ [0], 0%Z)) (filter (fun e => beqb (fst e) key && negb (beqb (snd e) [])) es)).
Proof. intros es key v H N. apply in_map_iff. exists (key, v). split; [reflexivity|]. apply filter_In. split; [exact H|]. cbn [fst snd]. rewrite beqb_refl, (proj2 (beqb_neq _ _) N). reflexivity. Qed.
Lemma repeat_len : forall es key, (List.length (filter (fun e : bytes * bytes => beqb (fst e) key && negb (beqb (snd e) [])) es) <= count_occ bytes_dec (map fst es) key)%nat.
Proof.
  induction es as [|[k w] es IH]; intros key; [apply le_n|]. specialize (IH key). cbn [filter fst snd map count_occ]. destruct (bytes_dec k key) as [->|Ne].
  - rewrite beqb_refl. cbn [andb]. destruct (negb (beqb w [])); cbn [List.length]; [apply le_n_S|apply le_S]; exact IH.
  - rewrite (proj2 (beqb_neq _ _) Ne). cbn [andb]. exact IH.
Qed.
Lemma repeat_short : forall es key, In (key, []) es -> (List.length (filter (fun e : bytes * bytes => beqb (fst e) key && negb (beqb (snd e) [])) es) < count_occ bytes_dec (map fst es) key)%nat.
Proof.
  induction es as [|[k w] es IH]; intros key H; [destruct H|]. cbn [filter fst snd map count_occ]. pose proof (repeat_len es key) as L. destruct (bytes_dec k key) as [->|Ne].
  - rewrite beqb_refl. cbn [andb]. destruct (beqb w []) eqn:E; cbn [negb List.length]; [apply le_n_S; exact L|]. destruct H as [Q|H]; [injection Q as ->; discriminate|]. specialize (IH _ H). apply le_n_S. exact IH.
  - rewrite (proj2 (beqb_neq _ _) Ne). cbn [andb]. destruct H as [Q|H]; [congruence|]. apply IH. exact H.
Qed.
Lemma list_exact : forall f sec key, Forall (fun e => blen (snd e) < INI_BUFFERSIZE) (entries f sec) ->
  (list_of_file (minini f) sec key = meant f sec key <-> (forall v v', In (key, v) (entries f sec) -> In (key, v') (entries f sec) -> v = v')).
Proof.
  intros f sec key Hs. split; [|apply list_meant; exact Hs]. unfold list_of_file, meant. cbn [minini ini_keys ini_gets]. set (es := entries f sec) in *. clearbody es. intros E.
  destruct (find (fun e => beqb (fst e) key) es) as [[k v0]|] eqn:F.
  - apply find_some in F. cbn [fst snd] in *. destruct F as [Ein Ek]. apply beqb_eq in Ek. subst k. rewrite Forall_forall in Hs. pose proof (Hs _ Ein) as Hl. cbn [snd] in Hl. rewrite firstn_all2 in E by (unfold blen in Hl; lia).
    assert (A : forall v, In (key, v) es -> v = v0).
    { intros v Hv. destruct v0 as [|c v0].
      - destruct v as [|c v]; [reflexivity|]. pose proof (meant_in _ _ _ Hv ltac:(discriminate)) as Q. pose proof (eq_ind_r (fun l => In _ l) Q E) as Q1. destruct Q1.
      - destruct v as [|x v].
        + apply repeat_short in Hv. apply (f_equal (@List.length _)) in E. rewrite repeat_length, map_length in E. exfalso. eapply Nat.lt_irrefl. eapply Nat.lt_le_trans; [exact Hv|]. apply Nat.eq_le_incl. exact E.
        + pose proof (meant_in _ _ _ Hv ltac:(discriminate)) as Q. pose proof (eq_ind_r (fun l => In _ l) Q E) as Q0. apply repeat_spec in Q0. injection Q0 as Q1 Q2. subst x. f_equal. apply (app_inj_tail _ _ _ _ Q2). }
    intros v v' H H'. rewrite (A _ H), (A _ H'). reflexivity.
  - intros v v' H H'. pose proof (find_none _ _ F _ H) as Q. cbn [fst] in Q. rewrite beqb_refl in Q. discriminate.
Qed.
Lemma list_right : forall f h cfg h1 sec fld key, heap_wf h -> file_ok f -> zero_cfg h cfg -> load_brski_config true (minini f) h cfg = Ok (0%Z, h1) ->
  In (sec, fld, key) config_lists -> Forall (fun e => blen (snd e) < INI_BUFFERSIZE) (entries f sec) ->
  (cfg_list h1 cfg fld = Ok (meant f sec key) <-> (forall v v', In (key, v) (entries f sec) -> In (key, v') (entries f sec) -> v = v')).
Proof.
  intros f h cfg h1 sec fld key W Hf Z E Hi Hs. rewrite <- (list_exact f sec key Hs).
  destruct (config_outcome true (minini f) h cfg W (minini_ok f Hf) Z) as [(h1' & h2 & E' & _ & A & _)|[(h1' & E' & _)|(k & E' & _)]]; rewrite E in E'; try discriminate.
  injection E' as <-. rewrite (proj2 A _ _ _ Hi). split; [intros Q; injection Q as Q; exact Q|intros ->; reflexivity].
Qed.
