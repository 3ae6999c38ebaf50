(** C122, C123: the life of a server. *)
From Verif Require Import Base PBase MLife SLife PLife PLife2 PLife3 PLife4.
Open Scope N_scope.

(** C122, what holds: while nobody stops it, and whatever accept answers, the server
    uses no released memory and closes nothing twice; its workers take the
    connections in the order in which they came and leave none out; when the call that
    started it returns, all have been taken and every descriptor is closed. The full
    statement says also that the call does not return. *)
Theorem C122_partial : forall n fd es r, undisturbed es -> run (bound n fd) es = Some r ->
  exists s, r = Ok s /\ (exists rest, connections es = lf_taken s ++ rest) /\ (n <> O -> returned s -> lf_taken s = connections es /\ lf_opened s = []).
Proof. exact serves. Qed.
Print Assumptions C122_partial.

(** C122, what holds: while accept fails for no other reason than a signal, a full
    table of descriptors or nothing to accept, the listening thread is waiting for a
    connection or needs at most three steps to be. The full statement has no such
    condition. *)
Theorem C122_goes_on_partial : forall n fd es s, undisturbed es -> ~ broken es -> run (bound n fd) es = Some (Ok s) -> exists m s', (m <= 3)%nat /\ run s (repeat Listens m) = Some (Ok s') /\ waiting s'.
Proof. exact comes_back. Qed.
Print Assumptions C122_goes_on_partial.

(** C122: after any other failure of accept the server accepts no connection more. *)
Theorem C122_ends : forall n fd es e es' r, ~ transient e -> run (bound n fd) (es ++ Accepts (Fails e) :: es') = Some r -> connections es' = [].
Proof. exact ends. Qed.
Print Assumptions C122_ends.

(** C122 is false: one connection that its client has given up before it was accepted
    ends the server. *)
Theorem C122_refuted : exists n fd es s, n <> O /\ undisturbed es /\ (forall e, In (Accepts (Fails e)) es -> e = ECONNABORTED) /\ run (bound n fd) es = Some (Ok s) /\ returned s /\ lf_opened s = [] /\ lf_taken s = [4].
Proof. exact ends_refuted. Qed.
Print Assumptions C122_refuted.

(** C122: a server whose starting call has returned is stopped without harm, by its
    two steps and nothing else. *)
Theorem C122_stopped_after : forall n fd es s es' r, n <> O -> undisturbed es -> run (bound n fd) es = Some (Ok s) -> returned s -> run s es' = Some r -> exists s', r = Ok s' /\ lf_opened s' = [] /\ (es' = [Stops; Stops] <-> stopped s').
Proof. exact after. Qed.
Print Assumptions C122_stopped_after.

(** C123 is false: stopping a server that waits for a connection makes the listening
    thread use the released server. *)
Theorem C123_refuted : exists n fd es, n <> O /\ run (bound n fd) es = Some (UB UseAfterFree) /\ forall e, In (Accepts (Fails e)) es -> e = EINVAL.
Proof. exact stop_refuted. Qed.
Print Assumptions C123_refuted.

(** C123 is false also before the server is released: a server stopped after accept
    has failed closes its listening socket twice. *)
Theorem C123_close_refuted : exists n fd es, n <> O /\ run (bound n fd) es = Some (UB BadFree) /\ forall e, In (Accepts (Fails e)) es -> e = ENFILE.
Proof. exact close_refuted. Qed.
Print Assumptions C123_close_refuted.

(** C123, what holds: every schedule that goes wrong does so in one of these two ways:
    with the server stopped before its starting call has returned, or with accept
    failing and a stop. The full statement says that none does. *)
Theorem C123_exact_partial : forall n fd es k, run (bound n fd) es = Some (UB k) ->
  exists es' e s, es = es' ++ [e] /\ run (bound n fd) es' = Some (Ok s) /\ step s e = Some (UB k) /\ (k = UseAfterFree /\ stopped s /\ ~ returned s \/ k = BadFree /\ broken es' /\ In Stops es').
Proof. exact wrong_end. Qed.
Print Assumptions C123_exact_partial.

(** C123: once the stopping call has returned first, the starting call never returns
    in any schedule that stays defined. *)
Theorem C123_never : forall n fd es s es' s', run (bound n fd) es = Some (Ok s) -> stopped s -> ~ returned s -> run s es' = Some (Ok s') -> ~ returned s'.
Proof. exact never. Qed.
Print Assumptions C123_never.

(** C123: a stopped server does no harm if it is released only after the starting call
    has returned and the socket was taken from it before accept failed: nothing is used
    after its release or closed twice, all connections are taken in their order, and when
    both calls have returned every descriptor is closed. *)
Theorem C123_waited_partial : forall n fd a s b r, n <> O -> run (bound n fd) a = Some (Ok s) -> ~ broken a -> lf_sock s = None -> run s b = Some r ->
  (forall b1 b2 s1, b = b1 ++ b2 -> run s b1 = Some (Ok s1) -> stopped s1 -> returned s1) ->
  exists s', r = Ok s' /\ (exists rest, connections a ++ connections b = lf_taken s' ++ rest) /\ (returned s' -> lf_taken s' = connections a ++ connections b /\ (stopped s' -> lf_opened s' = [])).
Proof. exact waited. Qed.
Print Assumptions C123_waited_partial.

(** A server with two workers that serves two connections at once, meets a signal and
    goes on. *)
Example C122_case : exists s, run (bound 2 3) [Listens; Listens; Listens; Accepts (Got 4); Listens; Works 1 false; Listens; Listens; Accepts (Got 5); Listens; Works 1 false; Works 0 false; Works 0 false; Works 1 false; Works 0 true; Listens; Listens; Accepts (Fails EINTR)] = Some (Ok s) /\
  lf_taken s = [4; 5] /\ lf_opened s = [4; 3] /\ lf_w s = [WFree; WServe 4] /\ lf_l s = LFailed EINTR.
Proof. eexists. split; [vm_compute; reflexivity|]. repeat split; vm_compute; reflexivity. Qed.
(** The server of the refutation is stopped afterwards. *)
Example C122_case_after : exists s, run (bound 1 3) (aborted ++ [Stops; Stops]) = Some (Ok s) /\ stopped s /\ lf_alive s = false.
Proof. eexists. split; [vm_compute; reflexivity|]. split; reflexivity. Qed.
(** Stopping a server in whose queue a connection waits: the listening thread is still
    in accept and the server is gone. *)
Example C123_case : exists s, run (bound 1 3) [Listens; Listens; Listens; Accepts (Got 4); Listens; Listens; Listens; Stops; Stops; Stops; Stops; Stops] = Some (Ok s) /\ stopped s /\ ~ returned s /\ lf_jobs s = [4].
Proof. eexists. split; [vm_compute; reflexivity|]. split; [reflexivity|]. split; [vm_compute; discriminate|reflexivity]. Qed.
(** If the listening thread returns between the end of stop() and the deletion, all is
    well. *)
Example C123_case_waited : exists s, run (bound 1 3) [Listens; Listens; Listens; Stops; Stops; Stops; Stops; Accepts (Fails EINVAL); Listens; Listens; Listens; Works 0 false; Listens; Listens; Listens; Stops] = Some (Ok s) /\ stopped s /\ returned s /\ lf_opened s = [].
Proof. eexists. split; [vm_compute; reflexivity|]. repeat split; reflexivity. Qed.
