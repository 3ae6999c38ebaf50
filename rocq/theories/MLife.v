(** Model of the life of a server: the listening thread, the workers and a thread
    that stops the server. src/brski/http/httplib.h 668-741 (ThreadPool), 3159-3165,
    6229-6250 (listen, stop), 6634-6679 (binding), 6681-6760 (listen_internal),
    8970-9000 (process_and_close_socket) and httplib_wrapper.cpp 191-236.
    Every access to the server object by a thread is a step of its own; a schedule is
    a list of steps in any order. *)
From Verif Require Import Base.
Open Scope N_scope.

(** errno values of Linux. *)
Definition EINTR : N := 4.
Definition EBADF : N := 9.
Definition EAGAIN : N := 11.
Definition EINVAL : N := 22.
Definition ENFILE : N := 23.
Definition EMFILE : N := 24.
Definition ECONNABORTED : N := 103.

(** httplib.h 6681-6760 [listen_internal] and 6229-6233 [listen], where the
    listening thread is: before setting [is_running_] (6683); before the test of the
    loop (6689); before reading [svr_sock_] for accept (6702); in accept; looking at
    errno (6704-6712); before reading [svr_sock_] again (6713), for closing (6714);
    before close(2); with an accepted connection, before enqueue (6752); before
    shutdown of the queue (6755); joining the workers (699-701); before the end of
    the scopes (6684: [is_running_], 6231: [done_]); back in httplib_start. The idle
    interval is 0 and the options set on a connection (6722-6750) are left out. *)
Inductive lpc := LStart | LTest | LLoad | LWait (s : option N) | LFailed (e : N) | LAgain | LClose | LClosing (s : option N) | LQueue (c : N) | LShut | LJoin | LIdle | LDone | LBack.
(** httplib.h 708-728: waiting for a job; having taken the job of a connection, in
    process_and_close_socket before SSL_new(ctx_); serving it (8979-8995); the thread
    has ended. *)
Inductive wpc := WFree | WNew (c : N) | WServe (c : N) | WGone.
(** httplib_wrapper.cpp 191-197 [httplib_stop] with httplib.h 6243-6250 [stop]: not
    called yet; before the exchange; before shutdown(2); before close(2); before
    [delete server]; done. The assertion at 6245 is not modelled. *)
Inductive spc := SCall | SSwap | SShut (s : option N) | SClose (s : option N) | SDelete | SEnd.

(** [lf_alive]: the server object is allocated; [lf_sock]: [svr_sock_]; [lf_running]:
    [is_running_]; [lf_jobs], [lf_shut]: the queue of the ThreadPool; [lf_listens]: the
    kernel still accepts on the listening socket; [lf_opened]: the open descriptors;
    [lf_accepted], [lf_taken]: the connections accepted and taken so far. *)
Record life := mk_life {
  lf_alive : bool; lf_sock : option N; lf_running : bool; lf_jobs : list N; lf_shut : bool;
  lf_l : lpc; lf_w : list wpc; lf_s : spc;
  lf_listens : bool; lf_opened : list N; lf_accepted : list N; lf_taken : list N }.

(** What accept(2) gives. *)
Inductive accepts := Got (c : N) | Fails (e : N).
(** A step of the listening thread; its return from accept; a step of worker [w],
    which ends the connection it serves or goes on; a step of the stopping thread. *)
Inductive event := Listens | Accepts (r : accepts) | Works (w : nat) (ends : bool) | Stops.

(** Memory of the server is used. *)
Definition touch {A} (s : life) (k : outcome A) : outcome A := if lf_alive s then k else UB UseAfterFree.
(** close(2): a descriptor that is not open may be anybody's by now. *)
Definition close_fd (s : life) (fd : option N) : outcome life :=
  match fd with
  | None => Ok s
  | Some fd => if in_dec N.eq_dec fd (lf_opened s)
    then Ok (mk_life (lf_alive s) (lf_sock s) (lf_running s) (lf_jobs s) (lf_shut s) (lf_l s) (lf_w s) (lf_s s) (lf_listens s) (remove N.eq_dec fd (lf_opened s)) (lf_accepted s) (lf_taken s))
    else UB BadFree
  end.
Definition at_l (s : life) (p : lpc) : life :=
  mk_life (lf_alive s) (lf_sock s) (lf_running s) (lf_jobs s) (lf_shut s) p (lf_w s) (lf_s s) (lf_listens s) (lf_opened s) (lf_accepted s) (lf_taken s).
Definition at_s (s : life) (p : spc) : life :=
  mk_life (lf_alive s) (lf_sock s) (lf_running s) (lf_jobs s) (lf_shut s) (lf_l s) (lf_w s) p (lf_listens s) (lf_opened s) (lf_accepted s) (lf_taken s).
Fixpoint set_nth {A} (n : nat) (x : A) (l : list A) : list A :=
  match n, l with
  | O, _ :: r => x :: r
  | S n, y :: r => y :: set_nth n x r
  | _, [] => []
  end.
Definition at_w (s : life) (w : nat) (p : wpc) : life :=
  mk_life (lf_alive s) (lf_sock s) (lf_running s) (lf_jobs s) (lf_shut s) (lf_l s) (set_nth w p (lf_w s)) (lf_s s) (lf_listens s) (lf_opened s) (lf_accepted s) (lf_taken s).
Definition runs_now (s : life) (b : bool) : life :=
  mk_life (lf_alive s) (lf_sock s) b (lf_jobs s) (lf_shut s) (lf_l s) (lf_w s) (lf_s s) (lf_listens s) (lf_opened s) (lf_accepted s) (lf_taken s).
Definition no_listening (s : life) : life :=
  mk_life (lf_alive s) (lf_sock s) (lf_running s) (lf_jobs s) (lf_shut s) (lf_l s) (lf_w s) (lf_s s) false (lf_opened s) (lf_accepted s) (lf_taken s).
Definition all_gone (l : list wpc) : bool := forallb (fun p => match p with WGone => true | _ => false end) l.

(** The listening thread; [None]: it has nothing to do or waits. *)
Definition listens (s : life) : option (outcome life) :=
  match lf_l s with
  | LStart => Some (touch s (Ok (at_l (runs_now s true) LTest)))
  | LTest => Some (touch s (Ok (at_l s (match lf_sock s with Some _ => LLoad | None => LShut end))))
  | LLoad => Some (touch s (Ok (at_l s (LWait (lf_sock s)))))
  | LWait _ => None
  | LFailed e => Some (Ok (at_l s (if (e =? EMFILE) || (e =? EINTR) || (e =? EAGAIN) then LTest else LAgain)))
  | LAgain => Some (touch s (Ok (at_l s (match lf_sock s with Some _ => LClose | None => LShut end))))
  | LClose => Some (touch s (Ok (at_l s (LClosing (lf_sock s)))))
  | LClosing fd => Some (obind (close_fd s fd) (fun s => Ok (at_l (no_listening s) LShut)))
  | LQueue c => Some (Ok (mk_life (lf_alive s) (lf_sock s) (lf_running s) (lf_jobs s ++ [c]) (lf_shut s) LTest (lf_w s) (lf_s s) (lf_listens s) (lf_opened s) (lf_accepted s) (lf_taken s)))
  | LShut => Some (Ok (mk_life (lf_alive s) (lf_sock s) (lf_running s) (lf_jobs s) true LJoin (lf_w s) (lf_s s) (lf_listens s) (lf_opened s) (lf_accepted s) (lf_taken s)))
  | LJoin => if all_gone (lf_w s) then Some (Ok (at_l s LIdle)) else None
  | LIdle => Some (touch s (Ok (at_l (runs_now s false) LDone)))
  | LDone => Some (touch s (Ok (at_l s LBack)))
  | LBack => None
  end.

(** The return of accept(2): a connection with a new descriptor, if the socket still
    listens, or an error. *)
Definition accepted_now (s : life) (r : accepts) : option (outcome life) :=
  match lf_l s with
  | LWait fd =>
    match r with
    | Fails e => Some (Ok (at_l s (LFailed e)))
    | Got c =>
      match fd with
      | Some _ => if lf_listens s && negb (if in_dec N.eq_dec c (lf_opened s) then true else false)
        then Some (Ok (mk_life (lf_alive s) (lf_sock s) (lf_running s) (lf_jobs s) (lf_shut s) (LQueue c) (lf_w s) (lf_s s) (lf_listens s) (c :: lf_opened s) (lf_accepted s ++ [c]) (lf_taken s)))
        else None
      | None => None
      end
    end
  | _ => None
  end.

(** A worker. Serving uses the server (its context, its handlers, [svr_sock_]) any
    number of times; at the end the connection is closed. *)
Definition works (s : life) (w : nat) (ends : bool) : option (outcome life) :=
  match nth_error (lf_w s) w with
  | None => None
  | Some WFree =>
    match lf_jobs s with
    | c :: r => Some (Ok (mk_life (lf_alive s) (lf_sock s) (lf_running s) r (lf_shut s) (lf_l s) (set_nth w (WNew c) (lf_w s)) (lf_s s) (lf_listens s) (lf_opened s) (lf_accepted s) (lf_taken s ++ [c])))
    | [] => if lf_shut s then Some (Ok (at_w s w WGone)) else None
    end
  | Some (WNew c) => Some (touch s (Ok (at_w s w (WServe c))))
  | Some (WServe c) => if ends then Some (obind (close_fd s (Some c)) (fun s => Ok (at_w s w WFree))) else Some (touch s (Ok s))
  | Some WGone => None
  end.

(** The stopping thread: masa_stop or registrar_stop, once [srv_ctx] is set. *)
Definition stops (s : life) : option (outcome life) :=
  match lf_s s with
  | SCall => Some (touch s (Ok (at_s s (if lf_running s then SSwap else SDelete))))
  | SSwap => Some (touch s (Ok (mk_life (lf_alive s) None (lf_running s) (lf_jobs s) (lf_shut s) (lf_l s) (lf_w s) (SShut (lf_sock s)) (lf_listens s) (lf_opened s) (lf_accepted s) (lf_taken s))))
  | SShut fd => Some (Ok (at_s (no_listening s) (SClose fd)))
  | SClose fd => Some (obind (close_fd s fd) (fun s => Ok (at_s s SDelete)))
  | SDelete => Some (touch s (Ok (mk_life false (lf_sock s) (lf_running s) (lf_jobs s) (lf_shut s) (lf_l s) (lf_w s) SEnd (lf_listens s) (lf_opened s) (lf_accepted s) (lf_taken s))))
  | SEnd => None
  end.

Definition step (s : life) (e : event) : option (outcome life) :=
  match e with
  | Listens => listens s
  | Accepts r => accepted_now s r
  | Works w ends => works s w ends
  | Stops => stops s
  end.
(** A schedule; [None] if a step is not possible when its turn comes. *)
Fixpoint run (s : life) (es : list event) : option (outcome life) :=
  match es with
  | [] => Some (Ok s)
  | e :: r => match step s e with Some (Ok s) => run s r | Some (UB k) => match r with [] => Some (UB k) | _ => None end | None => None end
  end.

(** httplib_wrapper.cpp 214-228: the server bound to the socket [fd] with [n] workers,
    its address stored in the context, before listen_internal. *)
Definition bound (n : nat) (fd : N) : life := mk_life true (Some fd) false [] false LStart (repeat WFree n) SCall true [fd] [] [].
