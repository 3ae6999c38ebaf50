(** Specification vocabulary for the life of a server. *)
From Verif Require Import Base MLife.
Open Scope N_scope.

(** Errors of accept after which the server tries again. *)
Definition transient (e : N) : Prop := e = EMFILE \/ e = EINTR \/ e = EAGAIN.
(** The connections that the kernel handed over, in their order. *)
Fixpoint connections (es : list event) : list N :=
  match es with
  | [] => []
  | Accepts (Got c) :: r => c :: connections r
  | _ :: r => connections r
  end.
(** Accept failed for another reason. *)
Definition broken (es : list event) : Prop := exists e, In (Accepts (Fails e)) es /\ ~ transient e.
(** Nobody stops the server. *)
Definition undisturbed (es : list event) : Prop := ~ In Stops es.

(** The call that started the server has returned. *)
Definition returned (s : life) : Prop := lf_l s = LBack.
(** The call that stops the server has returned. *)
Definition stopped (s : life) : Prop := lf_s s = SEnd.
(** The server waits for a connection and the kernel will give it one. *)
Definition waiting (s : life) : Prop := exists fd, lf_l s = LWait (Some fd) /\ In fd (lf_opened s) /\ lf_listens s = true.
