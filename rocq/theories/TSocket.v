(** C126: sockets and what goes with them. Theorems only. *)
From Coq Require Import Permutation.
From Verif Require Import Base PBase MSocket SSocket PSocket PSocket2 PSocket3 PSocket4.
Open Scope N_scope.

(** C126, what holds: whatever the kernel, the network and OpenSSL answer, a request that
    was posted has given back every socket, address list, TLS object, context and
    certificate it acquired, exactly once, has used nothing afterwards and failed no
    assert; left are the copy handed out and, if the peer was not verified and closed the
    first connection, one certificate. The full statement has no such exception. *)
Theorem C126_post_partial : forall e files verify h m r copy h', sound e -> exactly h m -> NoDup m -> post_request e files verify h = (r, copy, h') ->
  (exists lost, exactly h' (handed copy ++ lost ++ m) /\ (lost = [] \/ verify = false /\ (exists y, lost = [Cert y]) /\ exists h0, e_talk e h0 = TClosed)) /\
  (r = (-1)%Z /\ copy = None \/ exists h0 b, e_talk e h0 = TAnswer r b) /\ (verify = true -> copy = None).
Proof. exact posted_exact. Qed.
Print Assumptions C126_post_partial.

(** C126: a request to the MASA, with its own store of certificates, leaves nothing. *)
Theorem C126_post_ca : forall e files h m r h', sound e -> exactly h m -> NoDup m -> post_request_ca e files h = (r, h') -> exactly h' m /\ (r = (-1)%Z \/ exists h0 b, e_talk e h0 = TAnswer r b).
Proof. exact posted_ca_exact. Qed.
Print Assumptions C126_post_ca.

(** C126: a server that binds to a port holds the one socket it listens on, or none. The
    full statement includes port 0. *)
Theorem C126_bind_partial : forall e port h m r s h', sound e -> exactly h m -> NoDup m -> (0 < port)%Z -> bind_internal e port h = (r, s, h') ->
  r = port /\ (exists fd, s = Some fd /\ exactly h' (Sock fd :: m)) \/ r = (-1)%Z /\ s = None /\ exactly h' m.
Proof. exact bound_exact. Qed.
Print Assumptions C126_bind_partial.

(** C126: of an accepted connection nothing is left when it has been served. *)
Theorem C126_served : forall e served x fd h m r h', sound e -> exactly h (Sock fd :: m) -> NoDup (Sock fd :: m) -> In (Ctx x) m -> serve_socket e served x fd h = (r, h') -> exactly h' m.
Proof. exact served_exact. Qed.
Print Assumptions C126_served.

(** C126: a client tries the addresses in their order, leaves out only those for which no
    socket could be made, and stops at the first that works; if none is left, it has tried
    all. *)
Theorem C126_connect_order : forall e h a l r h', e_addrs e h = Some (a, l) -> create_socket e (connects e) h = (r, h') -> exists t, attempts h' = attempts h ++ t /\
  match r with
  | Some fd => exists l1 x l2 t1, l = l1 ++ x :: l2 /\ t = t1 ++ [(fd, x)] /\ thinned (map snd t1) l1 /\ ((forall h, e_socket e h <> None /\ e_cloexec e h = true) -> map snd t1 = l1)
  | None => thinned (map snd t) l /\ ((forall h, e_socket e h <> None /\ e_cloexec e h = true) -> map snd t = l)
  end.
Proof. exact (fun e h a l r h' => create_order e (connects e) h a l r h' (connects_tells e)). Qed.
Print Assumptions C126_connect_order.

(** C126: so does a server that binds. *)
Theorem C126_bind_order : forall e h a l r h', e_addrs e h = Some (a, l) -> create_socket e (binds e) h = (r, h') -> exists t, attempts h' = attempts h ++ t /\
  match r with
  | Some fd => exists l1 x l2 t1, l = l1 ++ x :: l2 /\ t = t1 ++ [(fd, x)] /\ thinned (map snd t1) l1 /\ ((forall h, e_socket e h <> None /\ e_cloexec e h = true) -> map snd t1 = l1)
  | None => thinned (map snd t) l /\ ((forall h, e_socket e h <> None /\ e_cloexec e h = true) -> map snd t = l)
  end.
Proof. exact (fun e h a l r h' => create_order e (binds e) h a l r h' (binds_tells e)). Qed.
Print Assumptions C126_bind_order.

(** C126: a server is bound to an address if the kernel said that the address is bound and
    listened on, and it is not bound only if for every address tried one of the two
    failed. *)
Theorem C126_bound : forall e h fd h', create_socket e (binds e) h = (Some fd, h') ->
  exists a x h0, h' = Drops (Addrs a) :: Uses (Sock fd) :: Tries fd x :: h0 /\ e_bind e (Tries fd x :: h0) = true /\ e_listen e (Uses (Sock fd) :: Tries fd x :: h0) = true.
Proof. exact bound_really. Qed.
Print Assumptions C126_bound.
Theorem C126_unbound : forall e h h', create_socket e (binds e) h = (None, h') ->
  forall p fd x q, h' = p ++ Tries fd x :: q ++ h -> e_bind e (Tries fd x :: q ++ h) = true -> e_listen e (Uses (Sock fd) :: Tries fd x :: q ++ h) = false.
Proof. exact unbound_really. Qed.
Print Assumptions C126_unbound.
(** C126: the same of a client: connected if the kernel said so, at once or later; not connected
    only if every address tried failed, or the wait for it was not possible (below) or
    failed. *)
Theorem C126_connected : forall e h fd h', create_socket e (connects e) h = (Some fd, h') ->
  exists x p h0, h' = p ++ Tries fd x :: h0 /\
    (e_connect e (Tries fd x :: h0) = CDone \/ e_connect e (Tries fd x :: h0) = CProgress /\ e_ready e (Uses (Sock fd) :: Tries fd x :: h0) = true).
Proof. exact connected_really. Qed.
Print Assumptions C126_connected.
Theorem C126_unconnected_partial : forall e h h', create_socket e (connects e) h = (None, h') ->
  forall p fd x q, h' = p ++ Tries fd x :: q ++ h -> e_connect e (Tries fd x :: q ++ h) = CFails \/
    e_connect e (Tries fd x :: q ++ h) = CProgress /\ (1024 <= fd \/ e_ready e (Uses (Sock fd) :: Tries fd x :: q ++ h) = false).
Proof. exact unconnected_really. Qed.
Print Assumptions C126_unconnected_partial.

(** C126 is false: if the peer closes the first connection, the certificate it sent there
    is lost. *)
Theorem C126_certificate_refuted : exists e, sound e /\ exists copy other h, post_request e true false [] = (200%Z, Some copy, h) /\ other <> copy /\ exactly h [Cert copy; Cert other].
Proof. exact cert_refuted. Qed.
Print Assumptions C126_certificate_refuted.

(** C126 is false: a client with more than 1024 descriptors cannot connect to a peer that
    does not answer at once, although the peer would be ready; with fewer it can. *)
Theorem C126_select_refuted : exists e, sound e /\ (forall h, e_ready e h = true /\ e_handshake e h = true /\ e_talk e h = TAnswer 200 false) /\ (exists h, post_request e true false [] = ((-1)%Z, None, h)) /\
  exists e', sound e' /\ (forall h, e_connect e' h = e_connect e h /\ e_ready e' h = e_ready e h /\ e_talk e' h = e_talk e h) /\ exists copy h, post_request e' true false [] = (200%Z, Some copy, h).
Proof. exact select_refuted. Qed.
Print Assumptions C126_select_refuted.

(** C126 is false: a server that was to choose its port and cannot learn it reports
    failure and keeps the socket. *)
Theorem C126_port_refuted : exists e, sound e /\ exists fd h, bind_internal e 0 [] = ((-1)%Z, Some fd, h) /\ exactly h [Sock fd].
Proof. exact port_refuted. Qed.
Print Assumptions C126_port_refuted.

(** Three addresses of which the third can be reached; the answer says that the connection
    is closed. *)
Example C126_case : let e := kernel 2 [7; 8; 9] (fun h => match h with Tries _ 9 :: _ => CDone | Tries _ 8 :: _ => CProgress | _ => CFails end) None (fun _ => TAnswer 404 true) in
  let e := mk_env (e_addrs e) (e_socket e) (e_cloexec e) (e_bind e) (e_listen e) (e_sockname e) (e_connect e) (fun _ => false) (e_alive e) (e_ctx e) (e_files e) (e_store e) (e_ssl e) (e_load e) (e_handshake e) (e_verified e) (e_peer e) (e_talk e) (e_copy e) in
  exists copy h, post_request e true false [] = (404%Z, Some copy, h) /\ holding h = Some [Cert copy] /\ map snd (attempts h) = [7; 8; 9].
Proof. eexists _, _. split; [vm_compute; reflexivity|]. split; vm_compute; reflexivity. Qed.
(** A server whose first address is taken. *)
Example C126_case_bind : let e := kernel 2 [7; 8] (fun h => match h with Tries _ 8 :: _ => CDone | _ => CFails end) None (fun _ => TFails) in
  exists fd h, bind_internal e 8443 [] = (8443%Z, Some fd, h) /\ holding h = Some [Sock fd] /\ attempts h = [(3 + 1, 7); (fd, 8)].
Proof. eexists _, _. split; [vm_compute; reflexivity|]. split; vm_compute; reflexivity. Qed.
(** A connection whose handshake fails. *)
Example C126_case_served : let e := kernel 2 [] (fun _ => CDone) None (fun _ => TFails) in
  let e := mk_env (e_addrs e) (e_socket e) (e_cloexec e) (e_bind e) (e_listen e) (e_sockname e) (e_connect e) (e_ready e) (e_alive e) (e_ctx e) (e_files e) (e_store e) (e_ssl e) (e_load e) (fun _ => false) (e_verified e) (e_peer e) (e_talk e) (e_copy e) in
  let h := [Gets (Sock 4); Gets (Ctx 3)] in exactly h [Sock 4; Ctx 3] /\ exists h', serve_socket e (fun _ => true) 3 4 h = (false, h') /\ holding h' = Some [Ctx 3].
Proof. split; [eexists; split; [vm_compute; reflexivity|apply Permutation_refl]|]. eexists. split; vm_compute; reflexivity. Qed.
