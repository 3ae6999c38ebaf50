(** Sockets: a sound kernel, and what goes wrong. *)
From Coq Require Import Permutation.
From Verif Require Import Base PBase MSocket SSocket PSocket PSocket2.
Open Scope N_scope.

Definition res_id (r : res) : N := match r with Sock n | Addrs n | Tls n | Cert n | Ctx n | Store n => n end.
Definition op_id (o : op) : N := match o with Gets r => res_id r | _ => 0 end.
(** A number larger than all given out before. *)
Definition fresh (base : N) (h : hist) : N := 1 + fold_right (fun o m => N.max (op_id o) m) base h.
Lemma held_below : forall base h l r, holding h = Some l -> In r l -> res_id r < fresh base h.
Proof.
  intros base. induction h as [|o h IH]; intros l r H I; [injection H as <-; destruct I|]. cbn [holding] in H. destruct (holding h) as [l0|] eqn:E; [|discriminate].
  assert (UP : forall r, In r l0 -> res_id r < fresh base (o :: h)) by (intros r0 I0; specialize (IH _ r0 eq_refl I0); unfold fresh in *; cbn [fold_right]; lia).
  destruct o as [x|x|x|fd x|[|]]; try discriminate.
  - destruct (in_dec res_eq x l0); [discriminate|]. injection H as <-. destruct I as [<-|I]; [|apply UP, I]. unfold fresh. cbn [fold_right op_id]. lia.
  - destruct (in_dec res_eq x l0); [|discriminate]. injection H as <-. apply UP, I.
  - destruct (in_dec res_eq x l0); [|discriminate]. injection H as <-. apply UP. eapply in_remove. exact I.
  - destruct (in_dec res_eq (Sock fd) l0); [|discriminate]. injection H as <-. apply UP, I.
  - injection H as <-. apply UP, I.
Qed.
(** A kernel with numbers above [base] and the addresses [l]; [how] they answer, [sockname]
    and what the peer [says] are given, all else succeeds. *)
Definition kernel (base : N) (l : list N) (how : hist -> conn) (sockname : option N) (says : hist -> talk) : env :=
  mk_env (fun h => Some (fresh base h, l)) (fun h => Some (fresh base h)) (fun _ => true) (fun h => match how h with CDone => true | _ => false end) (fun _ => true) (fun _ => sockname)
    how (fun _ => true) (fun _ => true) (fresh base) (fun _ => true) (fun h => Some (fresh base h)) (fun h => Some (fresh base h)) (fun _ => true) (fun _ => true) (fun _ => true) (fun h => Some (fresh base h)) says (fun h => Some (fresh base h)).
Lemma kernel_sound base l how sn says : sound (kernel base l how sn says).
Proof.
  intros h m H. assert (F : forall r, res_id r = fresh base h -> ~ In r m) by (intros r E I; pose proof (held_below base _ _ _ H I); lia). unfold kernel; cbn [e_addrs e_socket e_ctx e_store e_ssl e_peer e_copy].
  repeat apply conj; intros; try (apply F; cbn [res_id]; congruence).
Qed.
(** The peer closes the first time. *)
Fixpoint tls_made (h : hist) : nat := match h with [] => O | Gets (Tls _) :: r => S (tls_made r) | _ :: r => tls_made r end.
Definition second_time (h : hist) : talk := if Nat.leb (tls_made h) 1 then TClosed else TAnswer 200 false.
Lemma cert_refuted : exists e, sound e /\ exists copy other h, post_request e true false [] = (200%Z, Some copy, h) /\ other <> copy /\ exactly h [Cert copy; Cert other].
Proof.
  exists (kernel 2 [1] (fun _ => CDone) None second_time). split; [apply kernel_sound|]. eexists _, _, _. split; [vm_compute; reflexivity|]. split; [|eexists; split; [vm_compute; reflexivity|apply Permutation_refl]]. discriminate.
Qed.
(** The connection is in progress and would be ready. *)
Lemma select_refuted : exists e, sound e /\ (forall h, e_ready e h = true /\ e_handshake e h = true /\ e_talk e h = TAnswer 200 false) /\ (exists h, post_request e true false [] = ((-1)%Z, None, h)) /\
  exists e', sound e' /\ (forall h, e_connect e' h = e_connect e h /\ e_ready e' h = e_ready e h /\ e_talk e' h = e_talk e h) /\ exists copy h, post_request e' true false [] = (200%Z, Some copy, h).
Proof.
  exists (kernel 1024 [1] (fun _ => CProgress) None (fun _ => TAnswer 200 false)). split; [apply kernel_sound|]. split; [intros h; repeat split|]. split; [eexists; vm_compute; reflexivity|].
  exists (kernel 2 [1] (fun _ => CProgress) None (fun _ => TAnswer 200 false)). split; [apply kernel_sound|]. split; [intros h; repeat split|]. eexists _, _. vm_compute. reflexivity.
Qed.
Lemma port_refuted : exists e, sound e /\ exists fd h, bind_internal e 0 [] = ((-1)%Z, Some fd, h) /\ exactly h [Sock fd].
Proof.
  exists (kernel 2 [1] (fun _ => CDone) None second_time). split; [apply kernel_sound|]. eexists _, _. split; [vm_compute; reflexivity|]. eexists; split; [vm_compute; reflexivity|apply Permutation_refl].
Qed.

Section Final.
  Lemma posted_exact e files verify h m r copy h' : sound e -> exactly h m -> NoDup m -> post_request e files verify h = (r, copy, h') ->
    (exists lost, exactly h' (handed copy ++ lost ++ m) /\ (lost = [] \/ verify = false /\ (exists y, lost = [Cert y]) /\ exists h0, e_talk e h0 = TClosed)) /\
    (r = (-1)%Z /\ copy = None \/ exists h0 b, e_talk e h0 = TAnswer r b) /\ (verify = true -> copy = None).
  Proof.
    intros S (l & A & B) N E. assert (H : has h m) by (exists l; split; [exact A|]; split; [eapply Permutation_NoDup; [symmetry; exact B|exact N]|exact B]).
    destruct (posted e S _ _ _ _ _ _ _ H E) as ((L & Q1 & Q2) & Q3). split; [exists L; split; [apply has_exactly, Q1|exact Q2]|exact Q3].
  Qed.
  Lemma posted_ca_exact e files h m r h' : sound e -> exactly h m -> NoDup m -> post_request_ca e files h = (r, h') -> exactly h' m /\ (r = (-1)%Z \/ exists h0 b, e_talk e h0 = TAnswer r b).
  Proof.
    intros S (l & A & B) N E. assert (H : has h m) by (exists l; split; [exact A|]; split; [eapply Permutation_NoDup; [symmetry; exact B|exact N]|exact B]).
    destruct (posted_ca e S _ _ _ _ _ H E) as (Q1 & Q2). split; [apply has_exactly, Q1|exact Q2].
  Qed.
  Lemma bound_exact e port h m r s h' : sound e -> exactly h m -> NoDup m -> (0 < port)%Z -> bind_internal e port h = (r, s, h') ->
    r = port /\ (exists fd, s = Some fd /\ exactly h' (Sock fd :: m)) \/ r = (-1)%Z /\ s = None /\ exactly h' m.
  Proof.
    intros S (l & A & B) N P E. assert (H : has h m) by (exists l; split; [exact A|]; split; [eapply Permutation_NoDup; [symmetry; exact B|exact N]|exact B]).
    destruct (bound_to e S _ _ _ _ _ _ H E) as (Q1 & Q2 & Q3). apply has_exactly in Q1. destruct (Q3 P) as [->|[-> ->]]; [|right; auto]. destruct s as [fd|]; [left; eauto|right; auto].
  Qed.
  Lemma served_exact e served x fd h m r h' : sound e -> exactly h (Sock fd :: m) -> NoDup (Sock fd :: m) -> In (Ctx x) m -> serve_socket e served x fd h = (r, h') -> exactly h' m.
  Proof.
    intros S (l & A & B) N I E. assert (H : has h (Sock fd :: m)) by (exists l; split; [exact A|]; split; [eapply Permutation_NoDup; [symmetry; exact B|exact N]|exact B]).
    apply has_exactly. eapply served_one; eassumption.
  Qed.
End Final.
