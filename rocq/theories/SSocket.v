(** Specification vocabulary for sockets and what goes with them. *)
From Coq Require Import Permutation.
From Verif Require Import Base MSocket.
Open Scope N_scope.

Definition res_eq : forall x y : res, {x = y} + {x <> y}.
Proof. decide equality; apply N.eq_dec. Defined.

(** What is held after a history; [None] if something not held was used or given back,
    something held was acquired once more, or an assert failed. *)
Fixpoint holding (h : hist) : option (list res) :=
  match h with
  | [] => Some []
  | o :: r => match holding r with
    | None => None
    | Some l => match o with
      | Gets x => if in_dec res_eq x l then None else Some (x :: l)
      | Uses x => if in_dec res_eq x l then Some l else None
      | Tries fd _ => if in_dec res_eq (Sock fd) l then Some l else None
      | Drops x => if in_dec res_eq x l then Some (remove res_eq x l) else None
      | Asserts b => if b then Some l else None
      end
    end
  end.

(** The kernel and OpenSSL give nothing out twice. *)
Definition sound (e : env) : Prop := forall h l, holding h = Some l ->
  (forall a x, e_addrs e h = Some (a, x) -> ~ In (Addrs a) l) /\ (forall n, e_socket e h = Some n -> ~ In (Sock n) l) /\ ~ In (Ctx (e_ctx e h)) l /\
  (forall n, e_store e h = Some n -> ~ In (Store n) l) /\ (forall n, e_ssl e h = Some n -> ~ In (Tls n) l) /\
  (forall n, e_peer e h = Some n -> ~ In (Cert n) l) /\ (forall n, e_copy e h = Some n -> ~ In (Cert n) l).

(** After [h] exactly [m] is held and nothing went wrong. *)
Definition exactly (h : hist) (m : list res) : Prop := exists l, holding h = Some l /\ Permutation l m.

Definition handed (o : option N) : list res := match o with Some y => [Cert y] | None => [] end.
(** The attempts to bind or connect in a history, the earliest first. *)
Fixpoint attempts (h : hist) : list (N * N) :=
  match h with [] => [] | Tries fd x :: r => attempts r ++ [(fd, x)] | _ :: r => attempts r end.
(** [a] is [b] with some elements left out. *)
Inductive thinned {A} : list A -> list A -> Prop :=
| thinned_nil : thinned [] []
| thinned_keep : forall x a b, thinned a b -> thinned (x :: a) (x :: b)
| thinned_skip : forall x a b, thinned a b -> thinned a (x :: b).
